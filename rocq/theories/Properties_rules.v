(** Properties of moves, rules and the course of a game: C10-C24, C41, C43, C44, C50, C55, C59, C61-C63 *)
From stdpp Require Import relations sorting strings.
From Verif Require Import Spec Reach Observe Ops ScoreSpec DeadStones Samples GameFacts RulesFacts LegalsFacts OpsFacts RefuteFacts ClaimFacts PropFacts SuperkoFacts JapaneseFacts RuleFacts EyeExact PlayClaims CaseFacts MoreClaims TightClaims.
Local Notation length := Datatypes.length.
Open Scope nat_scope.

(** C10: a refused move leaves the game as it was. *)
Theorem C10_refusal_changes_nothing dbg g m g' e : try_play dbg g m = Ok (g', Refused e) -> g' = g.
Proof. exact (refused_unchanged dbg g m g' e). Qed.
Print Assumptions C10_refusal_changes_nothing.

Example C10_refusal_changes_nothing_case dbg : exists g g',
  lreach dbg 9 g /\ on 9 (1, 2) /\ forbids_ko (gm_rule g) = true /\ forbids_suicide (gm_rule g) = true /\
  forbids_superko (gm_rule g) = false /\ forbids_fill_eye (gm_rule g) = false /\
  try_play dbg g (MPlay 1 2) = Ok (g', Accepted) /\ position g (1, 1) = Some White /\ position g' (1, 1) = None /\
  on 9 (1, 1) /\ try_play dbg g' (MPlay 1 1) = Ok (g', Refused EKo) /\
  on 9 (5, 5) /\ exists g'', try_play dbg g' (MPlay 5 5) = Ok (g'', Accepted).
Proof. exact (case_legal dbg). Qed.

(** C11: [legals] lists exactly the points that [try_play] accepts, each once. *)
Theorem C11_legals_are_accepted_moves dbg n b w g : greach dbg n b w g -> ~ no_slot_left g -> gm_passes g <> 2%nat ->
  exists l, legals dbg g = Ok l /\ NoDup l /\
    (forall x y, (x, y) ∈ l <-> on n (x, y) /\ exists g', try_play dbg g (MPlay x y) = Ok (g', Accepted)) /\
    (forall p, p ∈ l -> position g p = None).
Proof. exact (claim_legals dbg n b w g). Qed.
Print Assumptions C11_legals_are_accepted_moves.

Example C11_legals_are_accepted_moves_case dbg : exists g b w,
  greach dbg 9 b w g /\ on 9 (1, 2) /\ position g (1, 2) = None /\ (N.of_nat (b + w) < 65535)%N /\ ~ no_slot_left g /\ play dbg g (MPlay 1 2) <> Panic /\
  position g (1, 1) = Some White /\ gm_turn g = Black /\ gm_passes g = 0 /\ captures 9 (position g) (1, 2) Black.
Proof. exact (case_capture dbg). Qed.

(** C12: the suicide check is exact, for both colours. *)
Theorem C12_suicide_check_exact dbg n b w g p c : greach dbg n b w g -> on n p -> position g p = None ->
  exists v, check_suicide dbg g (p, c) = Ok v /\ (v = true <-> suicidal n (position g) p c).
Proof. exact (claim_suicide dbg n b w g p c). Qed.
Print Assumptions C12_suicide_check_exact.

Example C12_suicide_check_exact_case dbg : exists g b w,
  greach dbg 3 b w g /\ on 3 (0, 0) /\ position g (0, 0) = None /\ (N.of_nat (b + w) < 65535)%N /\ play dbg g (MPlay 0 0) <> Panic /\ gm_turn g = White /\
  suicidal 3 (position g) (0, 0) White /\ on 3 (2, 2) /\ position g (2, 2) = None /\ ~ suicidal 3 (position g) (2, 2) White.
Proof. exact (case_suicide dbg). Qed.

(** C13: the capture prediction is exact. *)
Theorem C13_capture_prediction_exact dbg n b w g p : greach dbg n b w g -> on n p -> position g p = None ->
  exists v, will_capture dbg g p = Ok v /\ (v = true <-> captures n (position g) p (gm_turn g)).
Proof. exact (claim_will_capture dbg n b w g p). Qed.
Print Assumptions C13_capture_prediction_exact.

Example C13_capture_prediction_exact_case dbg : exists g b w,
  greach dbg 9 b w g /\ on 9 (1, 2) /\ position g (1, 2) = None /\ (N.of_nat (b + w) < 65535)%N /\ ~ no_slot_left g /\ play dbg g (MPlay 1 2) <> Panic /\
  position g (1, 1) = Some White /\ gm_turn g = Black /\ gm_passes g = 0 /\ captures 9 (position g) (1, 2) Black.
Proof. exact (case_capture dbg). Qed.

(** C14: in a legal game every chain has a liberty. *)
Theorem C14_every_chain_breathes dbg n g : lreach dbg n g -> all_breathe n (position g).
Proof. exact (claim_breathe dbg n g). Qed.
Print Assumptions C14_every_chain_breathes.

Example C14_every_chain_breathes_case dbg : exists g g',
  lreach dbg 9 g /\ on 9 (1, 2) /\ forbids_ko (gm_rule g) = true /\ forbids_suicide (gm_rule g) = true /\
  forbids_superko (gm_rule g) = false /\ forbids_fill_eye (gm_rule g) = false /\
  try_play dbg g (MPlay 1 2) = Ok (g', Accepted) /\ position g (1, 1) = Some White /\ position g' (1, 1) = None /\
  on 9 (1, 1) /\ try_play dbg g' (MPlay 1 1) = Ok (g', Refused EKo) /\
  on 9 (5, 5) /\ exists g'', try_play dbg g' (MPlay 5 5) = Ok (g'', Accepted).
Proof. exact (case_legal dbg). Qed.

(** C15: under simple ko, a point is refused with Ko exactly when the move would recreate the previous position. *)
Theorem C15_simple_ko_exact dbg n g0 x y g1 a b :
  lreach dbg n g0 -> forbids_ko (gm_rule g0) = true -> forbids_suicide (gm_rule g0) = true ->
  forbids_superko (gm_rule g0) = false ->
  on n (x, y) -> try_play dbg g0 (MPlay x y) = Ok (g1, Accepted) -> on n (a, b) ->
  try_play dbg g1 (MPlay a b) = Ok (g1, Refused EKo) <->
  position g1 (a, b) = None /\
  exists R, go_move false n (position g1) (a, b) (gm_turn g1) R /\ same_pos n R (position g0).
Proof. exact (claim_simple_ko dbg n g0 x y g1 a b). Qed.
Print Assumptions C15_simple_ko_exact.

Example C15_simple_ko_exact_case dbg : exists g g',
  lreach dbg 9 g /\ on 9 (1, 2) /\ forbids_ko (gm_rule g) = true /\ forbids_suicide (gm_rule g) = true /\
  forbids_superko (gm_rule g) = false /\ forbids_fill_eye (gm_rule g) = false /\
  try_play dbg g (MPlay 1 2) = Ok (g', Accepted) /\ position g (1, 1) = Some White /\ position g' (1, 1) = None /\
  on 9 (1, 1) /\ try_play dbg g' (MPlay 1 1) = Ok (g', Refused EKo) /\
  on 9 (5, 5) /\ exists g'', try_play dbg g' (MPlay 5 5) = Ok (g'', Accepted).
Proof. exact (case_legal dbg). Qed.

(** C16: a move refused with Ko would recreate an earlier position. *)
Theorem C16_ko_refuses_repetitions_only dbg n g a b :
  lreach dbg n g -> forbids_suicide (gm_rule g) = true -> on n (a, b) ->
  try_play dbg g (MPlay a b) = Ok (g, Refused EKo) ->
  position g (a, b) = None /\ ~ suicidal n (position g) (a, b) (gm_turn g) /\
  exists R y, go_move false n (position g) (a, b) (gm_turn g) R /\ y ∈ gm_history g /\ same_pos n R (pos_of y).
Proof. exact (claim_ko_repetition dbg n g a b). Qed.
Print Assumptions C16_ko_refuses_repetitions_only.

Example C16_ko_refuses_repetitions_only_case dbg : exists g,
  lreach dbg 2 g /\ forbids_superko (gm_rule g) = true /\ forbids_suicide (gm_rule g) = true /\
  forbids_fill_eye (gm_rule g) = false /\ on 2 (0, 0) /\ 2 < length (gm_history g) /\
  gm_ko_point g = None /\ try_play dbg g (MPlay 0 0) = Ok (g, Refused EKo) /\ try_play dbg g (MPlay 0 0) <> Panic.
Proof. exact (case_superko dbg). Qed.

(** C17: under superko an accepted move can recreate an earlier position. *)
Theorem C17_superko_refuses_every_repetition_refuted dbg : exists g g' y,
  lreach dbg 2 g /\ flag_illegal (gm_rule g) = flag_illegal CHINESE /\ (2 < length (gm_history g))%nat /\
  try_play dbg g (MPlay 0 0) = Ok (g', Accepted) /\ y ∈ gm_history g /\
  same_pos 2 (pos_of (gm_goban g')) (pos_of y).
Proof. exact (superko_misses dbg). Qed.
Print Assumptions C17_superko_refuses_every_repetition_refuted.

(** C17: once three positions are recorded, superko refuses exactly the capturing moves that recreate a recorded position. *)
Theorem C17_superko_exact dbg n g a b :
  lreach dbg n g -> forbids_superko (gm_rule g) = true -> forbids_suicide (gm_rule g) = true ->
  forbids_fill_eye (gm_rule g) = false -> on n (a, b) -> (2 < length (gm_history g))%nat ->
  try_play dbg g (MPlay a b) <> Panic ->
  (try_play dbg g (MPlay a b) = Ok (g, Refused EKo) <->
   gm_passes g <> 2%nat /\ position g (a, b) = None /\ ~ suicidal n (position g) (a, b) (gm_turn g) /\
   captures n (position g) (a, b) (gm_turn g) /\ repeats_history n g (a, b)).
Proof. exact (superko_exact dbg n g a b). Qed.
Print Assumptions C17_superko_exact.

Example C17_superko_exact_case dbg : exists g,
  lreach dbg 2 g /\ forbids_superko (gm_rule g) = true /\ forbids_suicide (gm_rule g) = true /\
  forbids_fill_eye (gm_rule g) = false /\ on 2 (0, 0) /\ 2 < length (gm_history g) /\
  gm_ko_point g = None /\ try_play dbg g (MPlay 0 0) = Ok (g, Refused EKo) /\ try_play dbg g (MPlay 0 0) <> Panic.
Proof. exact (case_superko dbg). Qed.

(** C17: once three positions are recorded, an accepted capture leads to a new position, whatever else the rule forbids. *)
Theorem C17_capturing_moves_never_repeat dbg n g a b g' :
  lreach dbg n g -> forbids_superko (gm_rule g) = true -> on n (a, b) ->
  try_play dbg g (MPlay a b) = Ok (g', Accepted) -> (2 < length (gm_history g))%nat ->
  captures n (position g) (a, b) (gm_turn g) ->
  forall y, y ∈ gm_history g -> ~ same_pos n (position g') (pos_of y).
Proof. exact (claim_superko_partial dbg n g a b g'). Qed.
Print Assumptions C17_capturing_moves_never_repeat.

Example C17_capturing_moves_never_repeat_case dbg : exists g g',
  lreach dbg 9 g /\ forbids_superko (gm_rule g) = true /\ on 9 (1, 2) /\
  try_play dbg g (MPlay 1 2) = Ok (g', Accepted) /\ 2 < length (gm_history g) /\
  captures 9 (position g) (1, 2) (gm_turn g).
Proof. exact (case_superko_accepts dbg). Qed.

(** C18: stones put = stones on the board + prisoners, for each colour. *)
Theorem C18_prisoners_account_for_stones dbg n b w g : greach dbg n b w g ->
  (N.of_nat b = N.of_nat (count n (position g) Black) + snd (gm_prisoners g))%N /\
  (N.of_nat w = N.of_nat (count n (position g) White) + fst (gm_prisoners g))%N.
Proof. exact (claim_prisoners dbg n b w g). Qed.
Print Assumptions C18_prisoners_account_for_stones.

Example C18_prisoners_account_for_stones_case dbg : exists g b w,
  greach dbg 3 b w g /\ gm_prisoners g = (1%N, 0%N) /\ b + w <= 3 /\ position g (0, 0) = None /\ position g (0, 1) = Some Black /\ on 3 (0, 1).
Proof. exact (case_caught dbg). Qed.

(** C19: prisoner counters stay below 2^32 and group sizes below 2^16. *)
Theorem C19_counters_never_overflow dbg n b w g : greach dbg n b w g ->
  (fst (gm_prisoners g) + snd (gm_prisoners g) <= 23658135)%N /\
  forall k grp, chains (gm_goban g) !! k = Some (Some grp) -> (1 <= g_num_stones grp <= 361)%nat.
Proof. exact (claim_no_overflow dbg n b w g). Qed.
Print Assumptions C19_counters_never_overflow.

Example C19_counters_never_overflow_case dbg : exists g b w,
  greach dbg 3 b w g /\ gm_prisoners g = (1%N, 0%N) /\ b + w <= 3 /\ position g (0, 0) = None /\ position g (0, 1) = Some Black /\ on 3 (0, 1).
Proof. exact (case_caught dbg). Qed.

(** C20: the side to move is given by the parity of the stone moves and passes. *)
Theorem C20_turns_alternate dbg g ops g' tr : forallb (fun o => negb (is_handicap o)) ops = true -> run dbg g ops = Ok (g', tr) ->
  gm_turn g' = if Nat.even (turns tr) then gm_turn g else opp (gm_turn g).
Proof. exact (turn_run dbg g ops g' tr). Qed.
Print Assumptions C20_turns_alternate.

Example C20_turns_alternate_case dbg : exists g g',
  game_new (Custom 3 3) JAPANESE = Ok g /\ run dbg g sample_ops = Ok (g', sample_trace) /\
  forallb (fun o => negb (is_handicap o)) sample_ops = true.
Proof. exact (case_run dbg). Qed.

(** C20: in a game without handicap stones it is the turn of Black exactly after an even number of stone moves and passes. *)
Theorem C20_black_begins dbg s r g ops g' tr : game_new s r = Ok g -> forallb (fun o => negb (is_handicap o)) ops = true ->
  run dbg g ops = Ok (g', tr) -> (gm_turn g' = Black <-> Nat.Even (turns tr)).
Proof. exact (turn_from_new dbg s r g ops g' tr). Qed.
Print Assumptions C20_black_begins.

Example C20_black_begins_case dbg : exists g g',
  game_new (Custom 3 3) JAPANESE = Ok g /\ run dbg g sample_ops = Ok (g', sample_trace) /\
  forallb (fun o => negb (is_handicap o)) sample_ops = true.
Proof. exact (case_run dbg). Qed.

(** C21: the pass count is the number of passes since the last stone move or resumption, and at most two. *)
Theorem C21_pass_count dbg g ops g' tr : run dbg g ops = Ok (g', tr) -> (gm_passes g <= 2)%nat ->
  (gm_passes g' <= 2)%nat /\
  gm_passes g' = (leading_passes (rev tr) +
    (if forallb (fun e => match e with EvPass => true | EvResign _ => true | _ => false end) tr then gm_passes g else 0))%nat.
Proof. exact (passes_run dbg g ops g' tr). Qed.
Print Assumptions C21_pass_count.

Example C21_pass_count_case dbg : exists g g',
  game_new (Custom 3 3) JAPANESE = Ok g /\ run dbg g sample_ops = Ok (g', sample_trace) /\
  forallb (fun o => negb (is_handicap o)) sample_ops = true.
Proof. exact (case_run dbg). Qed.

(** C21: without resignation a game is over exactly when its last two events are passes. *)
Theorem C21_two_passes_end_the_game dbg s r g ops g' tr : game_new s r = Ok g -> run dbg g ops = Ok (g', tr) ->
  existsb is_resign tr = false ->
  (is_over g' = true <-> exists t, tr = t ++ [EvPass; EvPass]).
Proof. exact (passes_over dbg s r g ops g' tr). Qed.
Print Assumptions C21_two_passes_end_the_game.

Example C21_two_passes_end_the_game_case dbg : exists g g',
  game_new (Custom 3 3) JAPANESE = Ok g /\
  run dbg g [OTry (MPlay 0 0); OTry MPass; OTry MPass; OTry (MPlay 1 1)] = Ok (g', [EvStone; EvPass; EvPass]) /\ is_over g' = true.
Proof. exact (case_run_over dbg). Qed.

(** C22: a game paused by two passes refuses every move, and only such a game says so. *)
Theorem C22_paused_game_refuses dbg g m :
  (gm_passes g = 2%nat <-> exists g', try_play dbg g m = Ok (g', Refused EGamePaused)) /\
  (gm_passes g = 2%nat -> try_play dbg g m = Ok (g, Refused EGamePaused)) /\
  (play dbg g MPass = Panic <-> (2 <= gm_passes g)%nat) /\
  (forall g', try_play dbg (resume g) m <> Ok (g', Refused EGamePaused)).
Proof. exact (claim_paused dbg g m). Qed.
Print Assumptions C22_paused_game_refuses.

Example C22_paused_game_refuses_case dbg : exists g b w,
  greach dbg 3 b w g /\ gm_passes g = 2 /\ gm_outcome g = None /\ is_f32 (komi g) /\ halves (komi g) 13 /\ (Z.abs 13 <= 200000)%Z /\
  (fst (gm_prisoners g) < 1000000)%N /\ (snd (gm_prisoners g) < 1000000)%N /\
  outcome (fun l => l) dbg g = Ok (Some (WinnerByScore Black (f32_make 3 (-1)))).
Proof. exact (case_paused dbg). Qed.

(** C22: [resume] changes the pass count only and makes passes possible again. *)
Theorem C22_resume dbg n b w g : greach dbg n b w g -> 
  gm_goban (resume g) = gm_goban g /\ gm_turn (resume g) = gm_turn g /\ gm_prisoners (resume g) = gm_prisoners g /\
  gm_outcome (resume g) = gm_outcome g /\ gm_rule (resume g) = gm_rule g /\ gm_handicap (resume g) = gm_handicap g /\
  gm_history (resume g) = gm_history g /\ gm_ko_point (resume g) = gm_ko_point g /\
  exists g', try_play dbg (resume g) MPass = Ok (g', Accepted).
Proof. exact (claim_resume dbg n b w g). Qed.
Print Assumptions C22_resume.

Example C22_resume_case dbg : exists g b w,
  greach dbg 3 b w g /\ gm_passes g = 2 /\ gm_outcome g = None /\ is_f32 (komi g) /\ halves (komi g) 13 /\ (Z.abs 13 <= 200000)%Z /\
  (fst (gm_prisoners g) < 1000000)%N /\ (snd (gm_prisoners g) < 1000000)%N /\
  outcome (fun l => l) dbg g = Ok (Some (WinnerByScore Black (f32_make 3 (-1)))).
Proof. exact (case_paused dbg). Qed.

(** C23: a resignation decides the game until another one. *)
Theorem C23_resignation_final dbg order g c g' ops g'' tr :
  play dbg g (MResign c) = Ok g' ->
  gm_goban g' = gm_goban g /\ gm_turn g' = gm_turn g /\ gm_passes g' = gm_passes g /\ gm_prisoners g' = gm_prisoners g /\
  gm_rule g' = gm_rule g /\ gm_handicap g' = gm_handicap g /\ gm_history g' = gm_history g /\ gm_ko_point g' = gm_ko_point g /\
  (run dbg g' ops = Ok (g'', tr) -> existsb is_resign tr = false ->
   is_over g'' = true /\ outcome order dbg g'' = Ok (Some (WinnerByResign c)) /\ game_get_winner order dbg g'' = Ok c).
Proof. exact (claim_resign dbg order g c g' ops g'' tr). Qed.
Print Assumptions C23_resignation_final.

Example C23_resignation_final_case dbg : exists g g',
  game_new (Custom 3 3) JAPANESE = Ok g /\ run dbg g sample_ops = Ok (g', sample_trace) /\
  forallb (fun o => negb (is_handicap o)) sample_ops = true.
Proof. exact (case_run dbg). Qed.

(** C24: a game in which the player to move has no legal point is not over, although the comment on [is_over] says so. *)
Theorem C24_no_moves_left_is_over_refuted dbg : exists g, lreach dbg 3 g /\ flag_illegal (gm_rule g) = flag_illegal CHINESE /\ legals dbg g = Ok [] /\
  is_over g = false /\ position g (0, 0) = None /\ position g (2, 2) = None /\ gm_turn g = White.
Proof. exact (no_moves_left dbg). Qed.
Print Assumptions C24_no_moves_left_is_over_refuted.

(** C24: a game that is over by resignation accepts a stone move. *)
Theorem C24_finished_game_refuses_refuted dbg : exists g g',
  lreach dbg 3 g /\ is_over g = true /\ try_play dbg g (MPlay 0 0) = Ok (g', Accepted).
Proof. exact (resigned_accepts dbg). Qed.
Print Assumptions C24_finished_game_refuses_refuted.

(** C24: the recorded outcome has no influence on stone moves: only two passes stop them. *)
Theorem C24_outcome_ignored dbg g o x y :
  try_play dbg (with_outcome g o) (MPlay x y)
  = let! '(g', v) := try_play dbg g (MPlay x y) in Ok (with_outcome g' o, v).
Proof. exact (claim_outcome_ignored dbg g o x y). Qed.
Print Assumptions C24_outcome_ignored.

(** C41: a move on an occupied point is refused and changes nothing. *)
Theorem C41_occupied_point_refused dbg n b w g x y : greach dbg n b w g -> on n (x, y) -> position g (x, y) <> None ->
  try_play dbg g (MPlay x y) = Ok (g, Refused (if (gm_passes g =? 2)%nat then EGamePaused else EPointNotEmpty)).
Proof. exact (fun H => occupied_refused dbg n g x y (breach_wf dbg n (b + w) (gm_goban g) (br_game dbg n b w g H))). Qed.
Print Assumptions C41_occupied_point_refused.

Example C41_occupied_point_refused_case dbg : exists g b w,
  greach dbg 3 b w g /\ gm_prisoners g = (1%N, 0%N) /\ b + w <= 3 /\ position g (0, 0) = None /\ position g (0, 1) = Some Black /\ on 3 (0, 1).
Proof. exact (case_caught dbg). Qed.

(** C43: the eye check is sound, and complete for points with all neighbours of one colour. *)
Theorem C43_eye_check dbg n b w g p c : greach dbg n b w g -> on n p ->
  exists v, check_eye dbg g (p, c) = Ok v /\
    (v = true -> position g p = None /\ forall q, on n q -> adj p q -> position g q = Some c) /\
    (position g p = None -> (forall q, on n q -> adj p q \/ diag p q -> position g q = Some c) -> v = true).
Proof. exact (claim_eye dbg n b w g p c). Qed.
Print Assumptions C43_eye_check.

Example C43_eye_check_case dbg : exists g b w,
  greach dbg 3 b w g /\ on 3 (0, 0) /\ check_eye dbg g ((0, 0), Black) = Ok true /\
  try_play dbg g (MPlay 0 0) = Ok (g, Refused EFillEye).
Proof. exact (case_eye dbg). Qed.

(** C43: the eye check recognises exactly the eye shapes of the specification. *)
Theorem C43_eye_exact dbg n b w g p c : greach dbg n b w g -> on n p ->
  exists v, check_eye dbg g (p, c) = Ok v /\ (v = true <-> eye_shape n (position g) c p).
Proof. exact (claim_eye_exact dbg n b w g p c). Qed.
Print Assumptions C43_eye_exact.

Example C43_eye_exact_case dbg : exists g b w, greach dbg 5 b w g /\ on 5 (0, 0) /\ on 5 (4, 4) /\ on 5 (2, 2) /\
  check_eye dbg g ((0, 0), Black) = Ok true /\ check_eye dbg g ((4, 4), Black) = Ok false /\ check_eye dbg g ((2, 2), Black) = Ok false /\
  position g (4, 3) = Some Black /\ position g (3, 4) = Some Black /\ position g (3, 3) = Some White.
Proof. exact (case_eyes dbg). Qed.

(** C43: a point refused with FillEye has the shape of an eye of the side to move. *)
Theorem C43_fill_eye_refusal dbg n b w g x y g' : greach dbg n b w g -> on n (x, y) ->
  try_play dbg g (MPlay x y) = Ok (g', Refused EFillEye) ->
  forbids_fill_eye (gm_rule g) = true /\ eye_shape n (position g) (gm_turn g) (x, y) /\
  position g (x, y) = None /\ forall q, on n q -> adj (x, y) q -> position g q = Some (gm_turn g).
Proof. exact (fill_eye_shape dbg n b w g x y g'). Qed.
Print Assumptions C43_fill_eye_refusal.

Example C43_fill_eye_refusal_case dbg : exists g b w,
  greach dbg 3 b w g /\ on 3 (0, 0) /\ check_eye dbg g ((0, 0), Black) = Ok true /\
  try_play dbg g (MPlay 0 0) = Ok (g, Refused EFillEye).
Proof. exact (case_eye dbg). Qed.

(** C44: stricter rules only remove moves. *)
Theorem C44_stricter_rules_remove_moves dbg n b w g f f' : greach dbg n b w g -> ~ no_slot_left g -> N.land f f' = f' ->
  exists l l', legals_by dbg g f = Ok l /\ legals_by dbg g f' = Ok l' /\ l `sublist_of` l' /\ forall p, p ∈ l -> p ∈ l'.
Proof. exact (claim_mono dbg n b w g f f'). Qed.
Print Assumptions C44_stricter_rules_remove_moves.

Example C44_stricter_rules_remove_moves_case dbg : exists g b w,
  greach dbg 9 b w g /\ on 9 (1, 2) /\ position g (1, 2) = None /\ (N.of_nat (b + w) < 65535)%N /\ ~ no_slot_left g /\ play dbg g (MPlay 1 2) <> Panic /\
  position g (1, 1) = Some White /\ gm_turn g = Black /\ gm_passes g = 0 /\ captures 9 (position g) (1, 2) Black.
Proof. exact (case_capture dbg). Qed.

(** C44: without any flag the legal points are the empty points. *)
Theorem C44_no_flag_is_pseudo_legal dbg n b w g : greach dbg n b w g ->
  exists l, pseudo_legals g = Ok l /\ legals_by dbg g 0%N = Ok l /\ forall p, p ∈ l <-> on n p /\ position g p = None.
Proof. exact (fun H => legals_none dbg n g (breach_wf dbg n (b + w) (gm_goban g) (br_game dbg n b w g H))). Qed.
Print Assumptions C44_no_flag_is_pseudo_legal.

Example C44_no_flag_is_pseudo_legal_case dbg : exists g b w,
  greach dbg 9 b w g /\ on 9 (1, 2) /\ position g (1, 2) = None /\ (N.of_nat (b + w) < 65535)%N /\ ~ no_slot_left g /\ play dbg g (MPlay 1 2) <> Panic /\
  position g (1, 1) = Some White /\ gm_turn g = Black /\ gm_passes g = 0 /\ captures 9 (position g) (1, 2) Black.
Proof. exact (case_capture dbg). Qed.

(** C50: the history holds the positions before each stone move, each once, in order of first occurrence. *)
Theorem C50_history dbg n l g : recorded dbg n l g ->
  first_occurrences n l (gm_history g) /\
  (forall a, a ∈ l -> exists y, y ∈ gm_history g /\ same_pos n (pos_of a) (pos_of y)).
Proof. exact (history_recorded dbg n l g). Qed.
Print Assumptions C50_history.

Example C50_history_case dbg : exists l g, recorded dbg 2 l g /\ length l = 8 /\ length (gm_history g) = 7.
Proof. exact (case_recorded dbg). Qed.

(** C55: the moves of the tree search are accepted by [try_play]; there are none only if the game is over. *)
Theorem C55_search_moves dbg n b w g : greach dbg n b w g -> ~ no_slot_left g -> gm_passes g <> 2 ->
  exists ms, legals_moves dbg g = Ok ms /\
    (ms = [] -> is_over g = true) /\
    (forall m, m ∈ ms -> exists g', try_play dbg g m = Ok (g', Accepted)) /\
    (forall m, m ∈ ms -> (exists x y, m = MPlay x y /\ on n (x, y)) \/ ms = [MPass]).
Proof. exact (claim_search_ok dbg n b w g). Qed.
Print Assumptions C55_search_moves.

Example C55_search_moves_case dbg : exists g b w,
  greach dbg 9 b w g /\ on 9 (1, 2) /\ position g (1, 2) = None /\ (N.of_nat (b + w) < 65535)%N /\ ~ no_slot_left g /\ play dbg g (MPlay 1 2) <> Panic /\
  position g (1, 1) = Some White /\ gm_turn g = Black /\ gm_passes g = 0 /\ captures 9 (position g) (1, 2) Black.
Proof. exact (case_capture dbg). Qed.

(** C55: the moves of the tree search are the accepted points that fill no eye of the mover, each once; [Pass] is among them exactly if there is no such point and the game is not over. *)
Theorem C55_search_moves_exact dbg n b w g : greach dbg n b w g -> ~ no_slot_left g -> gm_passes g <> 2 ->
  exists ms, legals_moves dbg g = Ok ms /\ NoDup ms /\
    (forall x y, MPlay x y ∈ ms <->
       on n (x, y) /\ (exists g', try_play dbg g (MPlay x y) = Ok (g', Accepted)) /\ ~ eye_shape n (position g) (gm_turn g) (x, y)) /\
    (MPass ∈ ms <-> is_over g = false /\ forall x y, MPlay x y ∉ ms) /\
    (forall c, MResign c ∉ ms).
Proof. exact (claim_search_moves dbg n b w g). Qed.
Print Assumptions C55_search_moves_exact.

Example C55_search_moves_exact_case dbg : exists g b w,
  greach dbg 9 b w g /\ on 9 (1, 2) /\ position g (1, 2) = None /\ (N.of_nat (b + w) < 65535)%N /\ ~ no_slot_left g /\ play dbg g (MPlay 1 2) <> Panic /\
  position g (1, 1) = Some White /\ gm_turn g = Black /\ gm_passes g = 0 /\ captures 9 (position g) (1, 2) Black.
Proof. exact (case_capture dbg). Qed.

(** C55: in a paused game the tree search is offered moves that [try_play] refuses. *)
Theorem C55_search_moves_accepted_refuted dbg : exists g b w ms m,
  greach dbg 2 b w g /\ is_over g = true /\ legals_moves dbg g = Ok ms /\ m ∈ ms /\
  try_play dbg g m = Ok (g, Refused EGamePaused).
Proof. exact (paused_moves dbg). Qed.
Print Assumptions C55_search_moves_accepted_refuted.

(** C55: [get_winner] panics on a draw. *)
Theorem C55_winner_exists_refuted dbg : exists g b w, greach dbg 2 b w g /\ is_over g = true /\
  outcome (fun l => l) dbg g = Ok (Some Draw) /\ game_get_winner (fun l => l) dbg g = Panic.
Proof. exact (draw_panics dbg). Qed.
Print Assumptions C55_winner_exists_refuted.

(** C59: the eye check is not invariant under rotation by half a turn. *)
Theorem C59_eye_symmetric_refuted dbg : exists g g' b w b' w',
  greach dbg 5 b w g /\ greach dbg 5 b' w' g' /\
  (forall x y, on 5 (x, y) -> pos_of (gm_goban g') (x, y) = pos_of (gm_goban g) (4 - x, 4 - y)%nat) /\
  check_eye dbg g ((2, 2)%nat, Black) = Ok true /\ check_eye dbg g' ((2, 2)%nat, Black) = Ok false.
Proof. exact (eye_asymmetric dbg). Qed.
Print Assumptions C59_eye_symmetric_refuted.

(** C61: what the two built-in rules forbid and count. *)
Theorem C61_rule_tables :
  (forbids_ko JAPANESE = true /\ forbids_superko JAPANESE = false /\ forbids_suicide JAPANESE = true /\ forbids_fill_eye JAPANESE = false) /\
  (forbids_ko CHINESE = true /\ forbids_superko CHINESE = true /\ forbids_suicide CHINESE = true /\ forbids_fill_eye CHINESE = false) /\
  is_f32 (r_komi JAPANESE) /\ halves (r_komi JAPANESE) 13 /\ is_f32 (r_komi CHINESE) /\ halves (r_komi CHINESE) 15 /\
  (forall t s p k, black2 (flag_score JAPANESE) t s p = (2 * Z.of_N (t + p))%Z /\
                   white2 (flag_score JAPANESE) t s p k = (2 * Z.of_N (t + p) + k)%Z /\
                   black2 (flag_score CHINESE) t s p = (2 * Z.of_N (t + s))%Z /\
                   white2 (flag_score CHINESE) t s p k = (2 * Z.of_N (t + s) + k)%Z).
Proof. exact rule_tables. Qed.
Print Assumptions C61_rule_tables.

(** C61: the names of the rules. *)
Theorem C61_rule_names s r : rule_from_str s = Some r <->
  (s = "JAP"%string /\ r = JAPANESE) \/ (s = "CHI"%string /\ r = CHINESE).
Proof. exact (rule_names s r). Qed.
Print Assumptions C61_rule_names.

(** C62: under simple ko, after a stone move, the accepted points are the empty ones that are no suicide and do not recreate the previous position. *)
Theorem C62_japanese_legality dbg n g0 x y g a b :
  lreach dbg n g0 -> forbids_ko (gm_rule g0) = true -> forbids_suicide (gm_rule g0) = true ->
  forbids_superko (gm_rule g0) = false -> forbids_fill_eye (gm_rule g0) = false ->
  on n (x, y) -> try_play dbg g0 (MPlay x y) = Ok (g, Accepted) -> on n (a, b) ->
  try_play dbg g (MPlay a b) <> Panic ->
  ((exists g', try_play dbg g (MPlay a b) = Ok (g', Accepted)) <->
   position g (a, b) = None /\ ~ suicidal n (position g) (a, b) (gm_turn g) /\
   ~ exists R, go_move false n (position g) (a, b) (gm_turn g) R /\ same_pos n R (position g0)).
Proof. exact (japanese_legal dbg n g0 x y g a b). Qed.
Print Assumptions C62_japanese_legality.

Example C62_japanese_legality_case dbg : exists g g',
  lreach dbg 9 g /\ on 9 (1, 2) /\ forbids_ko (gm_rule g) = true /\ forbids_suicide (gm_rule g) = true /\
  forbids_superko (gm_rule g) = false /\ forbids_fill_eye (gm_rule g) = false /\
  try_play dbg g (MPlay 1 2) = Ok (g', Accepted) /\ position g (1, 1) = Some White /\ position g' (1, 1) = None /\
  on 9 (1, 1) /\ try_play dbg g' (MPlay 1 1) = Ok (g', Refused EKo) /\
  on 9 (5, 5) /\ exists g'', try_play dbg g' (MPlay 5 5) = Ok (g'', Accepted).
Proof. exact (case_legal dbg). Qed.

(** C62: without superko, after a pass nothing is banned but suicide. *)
Theorem C62_no_ban_after_pass dbg n g0 g a b :
  lreach dbg n g0 -> forbids_suicide (gm_rule g0) = true ->
  forbids_superko (gm_rule g0) = false -> forbids_fill_eye (gm_rule g0) = false ->
  try_play dbg g0 MPass = Ok (g, Accepted) -> on n (a, b) -> try_play dbg g (MPlay a b) <> Panic ->
  ((exists g', try_play dbg g (MPlay a b) = Ok (g', Accepted)) <->
   gm_passes g0 = 0%nat /\ position g (a, b) = None /\ ~ suicidal n (position g) (a, b) (gm_turn g)).
Proof. exact (no_ban_after_pass dbg n g0 g a b). Qed.
Print Assumptions C62_no_ban_after_pass.

Example C62_no_ban_after_pass_case dbg : exists g0 g,
  lreach dbg 9 g0 /\ forbids_suicide (gm_rule g0) = true /\ forbids_superko (gm_rule g0) = false /\ forbids_fill_eye (gm_rule g0) = false /\
  gm_ko_point g0 = Some (1, 1) /\ try_play dbg g0 (MPlay 1 1) = Ok (g0, Refused EKo) /\ gm_passes g0 = 0 /\
  try_play dbg g0 MPass = Ok (g, Accepted) /\ on 9 (1, 1) /\ try_play dbg g (MPlay 1 1) <> Panic.
Proof. exact (case_after_pass dbg). Qed.

(** C63: under superko, once three positions are recorded, the accepted points are the empty ones that are no suicide and no capture recreating a recorded position. *)
Theorem C63_chinese_legality dbg n g a b :
  lreach dbg n g -> forbids_superko (gm_rule g) = true -> forbids_suicide (gm_rule g) = true ->
  forbids_fill_eye (gm_rule g) = false -> on n (a, b) -> (2 < length (gm_history g))%nat ->
  try_play dbg g (MPlay a b) <> Panic ->
  ((exists g', try_play dbg g (MPlay a b) = Ok (g', Accepted)) <->
   gm_passes g <> 2%nat /\ position g (a, b) = None /\ ~ suicidal n (position g) (a, b) (gm_turn g) /\
   ~ (captures n (position g) (a, b) (gm_turn g) /\ repeats_history n g (a, b))).
Proof. exact (chinese_legal dbg n g a b). Qed.
Print Assumptions C63_chinese_legality.

Example C63_chinese_legality_case dbg : exists g,
  lreach dbg 2 g /\ forbids_superko (gm_rule g) = true /\ forbids_suicide (gm_rule g) = true /\
  forbids_fill_eye (gm_rule g) = false /\ on 2 (0, 0) /\ 2 < length (gm_history g) /\
  gm_ko_point g = None /\ try_play dbg g (MPlay 0 0) = Ok (g, Refused EKo) /\ try_play dbg g (MPlay 0 0) <> Panic.
Proof. exact (case_superko dbg). Qed.
