(** Properties of random playouts, of the detection of dead stones, of the verdicts of [try_play] and of unusual komi: C65-C68 *)
From stdpp Require Import relations sorting strings.
From Verif Require Import Spec Reach Observe ScoreSpec RoundSpec PlayoutSpec VerdictSpec Samples GameFacts PlayoutFacts DeadFacts VerdictFacts RoundScore PlayClaims RoundClaims CaseFacts SolidClaims.
Local Notation length := Datatypes.length.
Open Scope nat_scope.

(** C65: a random playout ends, every move of it being accepted by [try_play] and filling no own eye, with a pass only if there is no such move; or it panics in a game that has used up all group numbers. *)
Theorem C65_playout_ends dbg n b w g shuffles fuel i : greach dbg n b w g -> (forall i l, shuffles i l ≡ₚ l) -> (47316994 < N.of_nat fuel)%N ->
  (exists g', playout fuel i shuffles dbg g = Ok g' /\ rtc (playout_step dbg n) g g' /\ is_over g' = true) \/
  (playout fuel i shuffles dbg g = Panic /\ exists g1, rtc (playout_step dbg n) g g1 /\ no_slot_left g1).
Proof. exact (claim_playout dbg n b w g shuffles fuel i). Qed.
Print Assumptions C65_playout_ends.

Example C65_playout_ends_case dbg : exists g g', lreach dbg 3 g /\ (exists b w, greach dbg 3 b w g) /\ (forall i l, wheel i l ≡ₚ l) /\
  (47316994 < N.of_nat (N.to_nat 47316995))%N /\ is_over g = false /\ gm_passes g = 0 /\ gm_outcome g = None /\ playout 60 0 wheel dbg g = Ok g' /\
  rtc (playout_step dbg 3) g g' /\ is_over g' = true /\ position g' (1, 1) = Some Black /\ position g' (0, 2) = None.
Proof. exact (case_playout dbg). Qed.

(** C65: playouts of legal games are legal. *)
Theorem C65_playouts_are_legal dbg n g g' : lreach dbg n g -> rtc (playout_step dbg n) g g' -> lreach dbg n g'.
Proof. exact (claim_playout_legal dbg n g g'). Qed.
Print Assumptions C65_playouts_are_legal.

Example C65_playouts_are_legal_case dbg : exists g g', lreach dbg 3 g /\ (exists b w, greach dbg 3 b w g) /\ (forall i l, wheel i l ≡ₚ l) /\
  (47316994 < N.of_nat (N.to_nat 47316995))%N /\ is_over g = false /\ gm_passes g = 0 /\ gm_outcome g = None /\ playout 60 0 wheel dbg g = Ok g' /\
  rtc (playout_step dbg 3) g g' /\ is_over g' = true /\ position g' (1, 1) = Some Black /\ position g' (0, 2) = None.
Proof. exact (case_playout dbg). Qed.

(** C65: every finished sequence of such moves is the playout for some shuffles. *)
Theorem C65_every_playout_possible dbg n b w g g' i : greach dbg n b w g -> rtc (playout_step dbg n) g g' -> is_over g' = true ->
  exists shuffles fuel, (forall j l, shuffles j l ≡ₚ l) /\ playout fuel i shuffles dbg g = Ok g'.
Proof. exact (claim_playout_complete dbg n b w g g' i). Qed.
Print Assumptions C65_every_playout_possible.

Example C65_every_playout_possible_case dbg : exists g g', lreach dbg 3 g /\ (exists b w, greach dbg 3 b w g) /\ (forall i l, wheel i l ≡ₚ l) /\
  (47316994 < N.of_nat (N.to_nat 47316995))%N /\ is_over g = false /\ gm_passes g = 0 /\ gm_outcome g = None /\ playout 60 0 wheel dbg g = Ok g' /\
  rtc (playout_step dbg 3) g g' /\ is_over g' = true /\ position g' (1, 1) = Some Black /\ position g' (0, 2) = None.
Proof. exact (case_playout dbg). Qed.

(** C65: a playout that starts without a pass ends with two passes, made when neither side had a legal move other than filling an own eye. *)
Theorem C65_playouts_end_settled dbg n g g' : gm_passes g = 0 -> gm_outcome g = None -> rtc (playout_step dbg n) g g' -> is_over g' = true ->
  exists g1 g2 l1 l2, rtc (playout_step dbg n) g g1 /\ gm_turn g2 = opp (gm_turn g1) /\ position g1 = position g' /\ position g2 = position g' /\
    legals dbg g1 = Ok l1 /\ (forall p, p ∈ l1 -> eye_shape n (position g') (gm_turn g1) p) /\ try_play dbg g1 MPass = Ok (g2, Accepted) /\
    legals dbg g2 = Ok l2 /\ (forall p, p ∈ l2 -> eye_shape n (position g') (gm_turn g2) p) /\ try_play dbg g2 MPass = Ok (g', Accepted).
Proof. exact (playout_settled dbg n g g'). Qed.
Print Assumptions C65_playouts_end_settled.

Example C65_playouts_end_settled_case dbg : exists g g', lreach dbg 3 g /\ (exists b w, greach dbg 3 b w g) /\ (forall i l, wheel i l ≡ₚ l) /\
  (47316994 < N.of_nat (N.to_nat 47316995))%N /\ is_over g = false /\ gm_passes g = 0 /\ gm_outcome g = None /\ playout 60 0 wheel dbg g = Ok g' /\
  rtc (playout_step dbg 3) g g' /\ is_over g' = true /\ position g' (1, 1) = Some Black /\ position g' (0, 2) = None.
Proof. exact (case_playout dbg). Qed.

(** C65: some playout of a legal game on the 2 x 2 board panics. *)
Theorem C65_playouts_never_panic_refuted dbg : exists g fuel shuffles, lreach dbg 2 g /\ is_over g = false /\ (forall i l, shuffles i l ≡ₚ l) /\
  playout fuel 0 shuffles dbg g = Panic.
Proof. exact (playout_panics dbg). Qed.
Print Assumptions C65_playouts_never_panic_refuted.

(** C66: reported as dead are the floating groups that lost a stone in the game played out by the search; the only other end is a panic, where no group number is left or the search panicked. *)
Theorem C66_dead_stones_exact dbg n b w g search fuel : greach dbg n b w g ->
  answers dbg n search g -> (47316994 < N.of_nat fuel)%N ->
  (exists l fl final, dead_stones fuel search dbg g = Ok l /\ get_floating_stones dbg g = Ok fl /\
     rtc (search_step dbg n) g final /\ is_over final = true /\ StronglySorted lt l /\
     forall k, k ∈ l <-> k ∈ fl /\ exists p, on n p /\ group_no (gm_goban g) p = Some k /\ position final p <> position g p) \/
  (dead_stones fuel search dbg g = Panic /\ exists g1, rtc (search_step dbg n) g g1 /\ gave_up dbg search g1).
Proof. exact (dead_stones_spec dbg n b w g search fuel). Qed.
Print Assumptions C66_dead_stones_exact.

Example C66_dead_stones_exact_case dbg : exists g b w, greach dbg 7 b w g /\ get_floating_stones dbg g = Ok [0] /\ is_over g = false /\
  answers dbg 7 (fun _ _ ms => Ok (hd MPass ms)) g /\ (47316994 < N.of_nat (N.to_nat 47316995))%N.
Proof. exact (case_dead dbg). Qed.

Example C66_dead_stones_exact_case2 dbg : exists g b w, greach dbg 7 b w g /\ forbids_suicide (gm_rule g) = true /\
  answers dbg 7 hunter g /\ dead_stones 600 hunter dbg g = Ok [0; 2] /\ 0 ∈ [0; 2].
Proof. exact (case_reported dbg). Qed.

(** C66: in a finished game no stone is reported as dead. *)
Theorem C66_finished_game_has_no_dead_stones dbg n b w g search fuel : greach dbg n b w g -> is_over g = true -> dead_stones fuel search dbg g = Ok [].
Proof. exact (dead_stones_over dbg n b w g search fuel). Qed.
Print Assumptions C66_finished_game_has_no_dead_stones.

Example C66_finished_game_has_no_dead_stones_case dbg : exists g b w, greach dbg 7 b w g /\ get_floating_stones dbg g = Ok [0] /\ is_over g = true.
Proof. exact (case_dead_over dbg). Qed.

(** C67: [try_play] gives the verdict of the first reason that applies, for every rule. *)
Theorem C67_verdict_exact dbg n b w g x y v : greach dbg n b w g -> on n (x, y) -> ~ no_slot_left g ->
  ((exists g', try_play dbg g (MPlay x y) = Ok (g', v)) <-> judged n (flag_illegal (gm_rule g)) (table_of g) (x, y) v).
Proof. exact (verdict_exact dbg n b w g x y v). Qed.
Print Assumptions C67_verdict_exact.

Example C67_verdict_exact_case dbg : exists g b w, greach dbg 9 b w g /\ on 9 (1, 1) /\ ~ no_slot_left g /\ try_play dbg g (MPlay 1 1) = Ok (g, Refused EKo) /\
  judged 9 (flag_illegal (gm_rule g)) (table_of g) (1, 1) (Refused EKo).
Proof. exact (case_verdict_ko dbg). Qed.

Example C67_verdict_exact_case2 dbg : exists g b w, greach dbg 3 b w g /\ on 3 (0, 0) /\ ~ no_slot_left g /\ try_play dbg g (MPlay 0 0) = Ok (g, Refused ESuicide) /\
  judged 3 (flag_illegal (gm_rule g)) (table_of g) (0, 0) (Refused ESuicide).
Proof. exact (case_verdict_suicide dbg). Qed.

(** C67: there is at most one such verdict. *)
Theorem C67_one_verdict n f t p v v' : judged n f t p v -> judged n f t p v' -> v = v'.
Proof. exact (judged_unique n f t p v v'). Qed.
Print Assumptions C67_one_verdict.

Example C67_one_verdict_case dbg : exists g b w, greach dbg 9 b w g /\ on 9 (1, 1) /\ ~ no_slot_left g /\ try_play dbg g (MPlay 1 1) = Ok (g, Refused EKo) /\
  judged 9 (flag_illegal (gm_rule g)) (table_of g) (1, 1) (Refused EKo).
Proof. exact (case_verdict_ko dbg). Qed.

(** C67: [try_play] on a point of the board panics only in a game that has used up all group numbers. *)
Theorem C67_panics_without_group_numbers dbg n b w g x y : greach dbg n b w g -> on n (x, y) -> try_play dbg g (MPlay x y) = Panic -> no_slot_left g.
Proof. exact (try_panic dbg n b w g x y). Qed.
Print Assumptions C67_panics_without_group_numbers.

Example C67_panics_without_group_numbers_case dbg : exists g b w x y, greach dbg 2 b w g /\ on 2 (x, y) /\ try_play dbg g (MPlay x y) = Panic.
Proof. exact (case_no_slot dbg). Qed.

(** C68: with a positive komi smaller than the machine epsilon, unequal scores are a draw. *)
Theorem C68_different_scores_no_draw_refuted dbg : exists g a b, lreach dbg 9 g /\ gm_passes g = 2 /\ is_f32 (komi g) /\
  calculate_score (fun l => l) dbg g = Ok (a, b) /\ f32_lt a b = true /\ outcome (fun l => l) dbg g = Ok (Some Draw).
Proof. exact (tiny_komi dbg). Qed.
Print Assumptions C68_different_scores_no_draw_refuted.

(** C68: a counted komi that is infinite decides the game by an infinite margin; one that is no number makes White win by no number. *)
Theorem C68_komi_not_finite order dbg n b0 w0 g :
  greach dbg n b0 w0 g -> (forall l, order l ≡ₚ l) ->
  units (komi g) = None -> N.testbit (flag_score (gm_rule g)) 1 = true ->
  (fst (gm_prisoners g) < 1000000)%N -> (snd (gm_prisoners g) < 1000000)%N ->
  gm_outcome g = None -> gm_passes g = 2%nat ->
  outcome order dbg g = Ok (Some
    match komi g with
    | S754_infinity true => WinnerByScore Black (S754_infinity false)
    | S754_infinity false => WinnerByScore White (S754_infinity false)
    | _ => WinnerByScore White S754_nan
    end).
Proof. exact (outcome_not_finite order dbg n b0 w0 g). Qed.
Print Assumptions C68_komi_not_finite.

Example C68_komi_not_finite_case dbg : exists g b w,
  greach dbg 3 b w g /\ gm_passes g = 2 /\ gm_outcome g = None /\ is_f32 (komi g) /\ units (komi g) = None /\
  N.testbit (flag_score (gm_rule g)) 1 = true /\
  (fst (gm_prisoners g) < 1000000)%N /\ (snd (gm_prisoners g) < 1000000)%N /\
  outcome (fun l => l) dbg g = Ok (Some (WinnerByScore Black (S754_infinity false))).
Proof. exact (case_infinite_komi dbg). Qed.

(** C68: with a komi that is no number White wins by a margin that is no number. *)
Theorem C68_number_as_margin_refuted dbg : exists g, lreach dbg 9 g /\ gm_passes g = 2 /\ is_f32 (komi g) /\
  outcome (fun l => l) dbg g = Ok (Some (WinnerByScore White S754_nan)).
Proof. exact (nan_komi dbg). Qed.
Print Assumptions C68_number_as_margin_refuted.
