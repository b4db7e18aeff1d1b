(** Playouts and dead stones on tall boards: C111, C112 *)
From stdpp Require Import relations sorting strings.
From Verif Require Import Spec ScoreSpec Reach Observe Samples DeadStones PlayoutSpec RectReach RectPlayoutSpec RectGo PlayClaims RectPlayoutClaims RectPlayout RectDead.
Local Notation length := Datatypes.length.
Open Scope nat_scope.

(** C111: on a board whose width divides its height a random playout ends, every move of it being an accepted stone in the square that the first rows form, not in an own eye, or a pass if no legal point listed is of that kind; or it panics in a game that has used up all group numbers. *)
Theorem C111_playout_ends dbg n b w g shuffles fuel i : Nat.divide (snd n) (fst n) -> rgreach dbg n b w g -> (forall j l, shuffles j l ≡ₚ l) ->
  (47316994 < N.of_nat fuel)%N ->
  (exists g', playout fuel i shuffles dbg g = Ok g' /\ rtc (rplayout_step dbg n) g g' /\ is_over g' = true) \/
  (playout fuel i shuffles dbg g = Panic /\ exists g1, rtc (rplayout_step dbg n) g g1 /\ no_slot_left g1).
Proof. exact (claim_rplayout dbg n b w g shuffles fuel i). Qed.
Print Assumptions C111_playout_ends.

Example C111_playout_ends_case dbg : exists g b w g', Nat.divide 3 6 /\ rgreach dbg (6, 3) b w g /\ rlreach dbg (6, 3) g /\ (forall i l, wheel i l ≡ₚ l) /\
  (47316994 < N.of_nat (N.to_nat 47316995))%N /\ playout 60 0 wheel dbg g = Ok g' /\ rtc (rplayout_step dbg (6, 3)) g g' /\ is_over g' = true /\
  ron (6, 3) (4, 1) /\ ~ in_square (6, 3) (4, 1) /\ position g' (4, 1) = None /\ position g' (1, 1) = Some White.
Proof. exact (case_rplayout dbg). Qed.

(** C111: playouts of legal games are legal. *)
Theorem C111_playouts_are_legal dbg n g g' : Nat.divide (snd n) (fst n) -> rlreach dbg n g -> rtc (rplayout_step dbg n) g g' -> rlreach dbg n g'.
Proof. exact (rsteps_lreach dbg n g g'). Qed.
Print Assumptions C111_playouts_are_legal.

Example C111_playouts_are_legal_case dbg : exists g b w g', Nat.divide 3 6 /\ rgreach dbg (6, 3) b w g /\ rlreach dbg (6, 3) g /\ (forall i l, wheel i l ≡ₚ l) /\
  (47316994 < N.of_nat (N.to_nat 47316995))%N /\ playout 60 0 wheel dbg g = Ok g' /\ rtc (rplayout_step dbg (6, 3)) g g' /\ is_over g' = true /\
  ron (6, 3) (4, 1) /\ ~ in_square (6, 3) (4, 1) /\ position g' (4, 1) = None /\ position g' (1, 1) = Some White.
Proof. exact (case_rplayout dbg). Qed.

(** C111: every finished sequence of such moves is the playout for some shuffles. *)
Theorem C111_every_playout_possible dbg n b w g g' i : Nat.divide (snd n) (fst n) -> rgreach dbg n b w g -> rtc (rplayout_step dbg n) g g' -> is_over g' = true ->
  exists shuffles fuel, (forall j l, shuffles j l ≡ₚ l) /\ playout fuel i shuffles dbg g = Ok g'.
Proof. exact (claim_rcomplete dbg n b w g g' i). Qed.
Print Assumptions C111_every_playout_possible.

Example C111_every_playout_possible_case dbg : exists g b w g', Nat.divide 3 6 /\ rgreach dbg (6, 3) b w g /\ rlreach dbg (6, 3) g /\ (forall i l, wheel i l ≡ₚ l) /\
  (47316994 < N.of_nat (N.to_nat 47316995))%N /\ playout 60 0 wheel dbg g = Ok g' /\ rtc (rplayout_step dbg (6, 3)) g g' /\ is_over g' = true /\
  ron (6, 3) (4, 1) /\ ~ in_square (6, 3) (4, 1) /\ position g' (4, 1) = None /\ position g' (1, 1) = Some White.
Proof. exact (case_rplayout dbg). Qed.

(** C111: if the board is k times as high as wide, the tree search is offered the accepted points of that square that are no eyes of the player, each of them k times, and a pass if there is none of them and the game is not over. *)
Theorem C111_search_moves dbg n b w g k : fst n = (k * snd n)%nat -> rgreach dbg n b w g -> ~ no_slot_left g -> gm_passes g <> 2%nat ->
  exists ms, legals_moves dbg g = Ok ms /\
    (forall x y, MPlay x y ∈ ms <->
       in_square n (x, y) /\ (exists g', try_play dbg g (MPlay x y) = Ok (g', Accepted)) /\ ~ reye_shape n (position g) (gm_turn g) (x, y)) /\
    (forall x y, MPlay x y ∈ ms -> length (filter (fun m => m = MPlay x y) ms) = k) /\
    (MPass ∈ ms <-> is_over g = false /\ forall x y, MPlay x y ∉ ms) /\
    (forall c, MResign c ∉ ms).
Proof. exact (rsearch_moves dbg n b w g k). Qed.
Print Assumptions C111_search_moves.

Example C111_search_moves_case dbg : exists g b w, fst (9, 3) = 3 * snd (9, 3) /\ Nat.divide 3 9 /\ rgreach dbg (9, 3) b w g /\ ~ no_slot_left g /\ gm_passes g <> 2 /\
  legals_moves dbg g = Ok [MPlay 0 0; MPlay 0 0; MPlay 0 0] /\
  answers_offered dbg last_move g /\ get_floating_stones dbg g = Ok [2] /\ group_no (gm_goban g) (1, 1) = Some 2 /\ dead_stones 60 last_move dbg g = Ok [2].
Proof. exact (case_rsearch dbg). Qed.

(** C111: so neither playouts nor the play of the search put a stone below the square: a point there keeps its stone or loses it. *)
Theorem C111_nothing_below_the_square dbg n b w g g' p : Nat.divide (snd n) (fst n) -> rgreach dbg n b w g ->
  rtc (rplayout_step dbg n) g g' \/ rtc (offered_step dbg) g g' ->
  ron n p -> ~ in_square n p -> position g' p = position g p \/ position g' p = None.
Proof. exact (roffered_steps_below dbg n b w g g' p). Qed.
Print Assumptions C111_nothing_below_the_square.

Example C111_nothing_below_the_square_case dbg : exists g b w g', Nat.divide 3 6 /\ rgreach dbg (6, 3) b w g /\ rlreach dbg (6, 3) g /\ (forall i l, wheel i l ≡ₚ l) /\
  (47316994 < N.of_nat (N.to_nat 47316995))%N /\ playout 60 0 wheel dbg g = Ok g' /\ rtc (rplayout_step dbg (6, 3)) g g' /\ is_over g' = true /\
  ron (6, 3) (4, 1) /\ ~ in_square (6, 3) (4, 1) /\ position g' (4, 1) = None /\ position g' (1, 1) = Some White.
Proof. exact (case_rplayout dbg). Qed.

(** C111: a playout can end with two passes while both players have a legal point that is no eye (compare C65 for square boards). *)
Theorem C111_playouts_end_settled_refuted dbg : exists g b w g1 g2 p, rgreach dbg (6, 3) b w g /\ gm_passes g = 0 /\
  rplayout_step dbg (6, 3) g g1 /\ rplayout_step dbg (6, 3) g1 g2 /\ is_over g2 = true /\ ron (6, 3) p /\
  (exists h, try_play dbg g (MPlay (fst p) (snd p)) = Ok (h, Accepted)) /\ ~ reye_shape (6, 3) (position g) (gm_turn g) p /\
  (exists h, try_play dbg g1 (MPlay (fst p) (snd p)) = Ok (h, Accepted)) /\ ~ reye_shape (6, 3) (position g1) (gm_turn g1) p.
Proof. exact (early_end dbg). Qed.
Print Assumptions C111_playouts_end_settled_refuted.

(** C112: [get_floating_stones] lists in increasing order the groups next to m points of the square with the shape of an eye, where k m is at least three. *)
Theorem C112_floating_stones dbg n b w g k : fst n = (k * snd n)%nat -> rgreach dbg n b w g ->
  exists l, get_floating_stones dbg g = Ok l /\ StronglySorted lt l /\
    forall i, i ∈ l <-> (i < length (all_chains (gm_goban g)))%nat /\
      exists m, (3 <= k * m)%nat /\ card (fun p => in_square n p /\ rsome_eye n g p /\ rnear_group n (gm_goban g) i p) m.
Proof. exact (rfloating_exact dbg n b w g k). Qed.
Print Assumptions C112_floating_stones.

Example C112_floating_stones_case dbg : exists g b w, fst (9, 3) = 3 * snd (9, 3) /\ Nat.divide 3 9 /\ rgreach dbg (9, 3) b w g /\ ~ no_slot_left g /\ gm_passes g <> 2 /\
  legals_moves dbg g = Ok [MPlay 0 0; MPlay 0 0; MPlay 0 0] /\
  answers_offered dbg last_move g /\ get_floating_stones dbg g = Ok [2] /\ group_no (gm_goban g) (1, 1) = Some 2 /\ dead_stones 60 last_move dbg g = Ok [2].
Proof. exact (case_rsearch dbg). Qed.

(** C112: [dead_stones] reports in increasing order the floating groups with a stone that the end of the play of the search does not show; it panics only if the search gives up on the way. *)
Theorem C112_dead_stones dbg n b w g search fuel : Nat.divide (snd n) (fst n) -> rgreach dbg n b w g ->
  answers_offered dbg search g -> (47316994 < N.of_nat fuel)%N ->
  (exists l fl final, dead_stones fuel search dbg g = Ok l /\ get_floating_stones dbg g = Ok fl /\
     rtc (offered_step dbg) g final /\ is_over final = true /\ StronglySorted lt l /\
     forall k, k ∈ l <-> k ∈ fl /\ exists p, ron n p /\ group_no (gm_goban g) p = Some k /\ position final p <> position g p) \/
  (dead_stones fuel search dbg g = Panic /\ exists g1, rtc (offered_step dbg) g g1 /\ gave_up dbg search g1).
Proof. exact (rdead_stones_spec dbg n b w g search fuel). Qed.
Print Assumptions C112_dead_stones.

Example C112_dead_stones_case dbg : exists g b w, fst (9, 3) = 3 * snd (9, 3) /\ Nat.divide 3 9 /\ rgreach dbg (9, 3) b w g /\ ~ no_slot_left g /\ gm_passes g <> 2 /\
  legals_moves dbg g = Ok [MPlay 0 0; MPlay 0 0; MPlay 0 0] /\
  answers_offered dbg last_move g /\ get_floating_stones dbg g = Ok [2] /\ group_no (gm_goban g) (1, 1) = Some 2 /\ dead_stones 60 last_move dbg g = Ok [2].
Proof. exact (case_rsearch dbg). Qed.

(** C112: in a finished game it reports nothing. *)
Theorem C112_dead_stones_of_finished_games dbg n b w g search fuel : Nat.divide (snd n) (fst n) -> rgreach dbg n b w g -> is_over g = true -> dead_stones fuel search dbg g = Ok [].
Proof. exact (rdead_stones_over dbg n b w g search fuel). Qed.
Print Assumptions C112_dead_stones_of_finished_games.

Example C112_dead_stones_of_finished_games_case dbg : exists g b w, Nat.divide 3 6 /\ rgreach dbg (6, 3) b w g /\ is_over g = true /\ position g (1, 1) = Some Black.
Proof. exact (case_rover dbg). Qed.
