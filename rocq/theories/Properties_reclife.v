(** Life, solid eyes and returning positions on tall boards: C113, C114 *)
From stdpp Require Import relations sorting strings.
From Verif Require Import Spec Reach Observe Samples DeadStones PlayoutSpec RectReach RectPlayoutSpec RectLifeSpec RectCycleSpec RectGo PlayClaims RectPlayoutClaims RectLegalClaims RectLife RectSolid RectSolidClaims RectCycle.
Local Notation length := Datatypes.length.
Open Scope nat_scope.

(** C113: where suicide is forbidden, stones with two disjoint vital regions stay on the board whatever is played, as long as their owner does not play inside the regions; they keep their regions. *)
Theorem C113_unconditional_life dbg n b w c X F g g' : Nat.divide (snd n) (fst n) -> rgreach dbg n b w g -> forbids_suicide (gm_rule g) = true ->
  ralive n (position g) c X F -> rtc (rspares dbg n c F) g g' ->
  (forall x, x ∈ X -> position g' x = Some c) /\ ralive n (position g') c X F.
Proof. exact (rbenson dbg n b w c X F g g'). Qed.
Print Assumptions C113_unconditional_life.

Example C113_unconditional_life_case dbg : exists g b w g' h l, Nat.divide 3 6 /\ 6 = 2 * 3 /\ rgreach dbg (6, 3) b w g /\ forbids_suicide (gm_rule g) = true /\
  ron (6, 3) (1, 1) /\ position g (1, 1) = Some Black /\
  ralive (6, 3) (position g) Black tall_wall [[(0, 0)]; [(0, 2)]] /\
  rsolid_eye (6, 3) (position g) (1, 1) (0, 0) /\ rsolid_eye (6, 3) (position g) (1, 1) (0, 2) /\
  try_play dbg g (MPlay 2 1) = Ok (g', Accepted) /\ rtc (rspares dbg (6, 3) Black [[(0, 0)]; [(0, 2)]]) g g' /\
  (forall i l, wheel i l ≡ₚ l) /\ playout 100 0 wheel dbg g = Ok h /\
  answers_offered dbg last_move g /\ dead_stones 100 last_move dbg g = Ok l /\
  get_floating_stones dbg g = Ok [0] /\ group_no (gm_goban g) (1, 1) = Some 0.
Proof. exact (case_rlife dbg). Qed.

(** C113: in particular a chain with two eyes is never captured, and the opponent never gets a stone into the eyes. *)
Theorem C113_two_eyes dbg n b w c p e1 e2 g g' : Nat.divide (snd n) (fst n) -> rgreach dbg n b w g -> forbids_suicide (gm_rule g) = true ->
  ron n p -> position g p = Some c -> e1 <> e2 ->
  rliberty n (position g) p e1 -> rliberty n (position g) p e2 ->
  (forall q, ron n q -> adj e1 q \/ adj e2 q -> rconnected n (position g) p q) ->
  rtc (rspares dbg n c [[e1]; [e2]]) g g' ->
  position g' p = Some c /\ position g' e1 <> Some (opp c) /\ position g' e2 <> Some (opp c).
Proof. exact (rtwo_eyes dbg n b w c p e1 e2 g g'). Qed.
Print Assumptions C113_two_eyes.

Example C113_two_eyes_case dbg : exists g b w g' h l, Nat.divide 3 6 /\ 6 = 2 * 3 /\ rgreach dbg (6, 3) b w g /\ forbids_suicide (gm_rule g) = true /\
  ron (6, 3) (1, 1) /\ position g (1, 1) = Some Black /\
  ralive (6, 3) (position g) Black tall_wall [[(0, 0)]; [(0, 2)]] /\
  rsolid_eye (6, 3) (position g) (1, 1) (0, 0) /\ rsolid_eye (6, 3) (position g) (1, 1) (0, 2) /\
  try_play dbg g (MPlay 2 1) = Ok (g', Accepted) /\ rtc (rspares dbg (6, 3) Black [[(0, 0)]; [(0, 2)]]) g g' /\
  (forall i l, wheel i l ≡ₚ l) /\ playout 100 0 wheel dbg g = Ok h /\
  answers_offered dbg last_move g /\ dead_stones 100 last_move dbg g = Ok l /\
  get_floating_stones dbg g = Ok [0] /\ group_no (gm_goban g) (1, 1) = Some 0.
Proof. exact (case_rlife dbg). Qed.

(** C113: a stone of a chain with two solid eyes is still there after every random playout. *)
Theorem C113_playouts_spare_solid_eyes dbg n b w c p e1 e2 g g' shuffles fuel i : Nat.divide (snd n) (fst n) -> rgreach dbg n b w g -> forbids_suicide (gm_rule g) = true ->
  ron n p -> position g p = Some c -> e1 <> e2 -> rsolid_eye n (position g) p e1 -> rsolid_eye n (position g) p e2 ->
  (forall j l, shuffles j l ≡ₚ l) -> playout fuel i shuffles dbg g = Ok g' -> position g' p = Some c.
Proof. exact (rplayouts_spare dbg n b w c p e1 e2 g g' shuffles fuel i). Qed.
Print Assumptions C113_playouts_spare_solid_eyes.

Example C113_playouts_spare_solid_eyes_case dbg : exists g b w g' h l, Nat.divide 3 6 /\ 6 = 2 * 3 /\ rgreach dbg (6, 3) b w g /\ forbids_suicide (gm_rule g) = true /\
  ron (6, 3) (1, 1) /\ position g (1, 1) = Some Black /\
  ralive (6, 3) (position g) Black tall_wall [[(0, 0)]; [(0, 2)]] /\
  rsolid_eye (6, 3) (position g) (1, 1) (0, 0) /\ rsolid_eye (6, 3) (position g) (1, 1) (0, 2) /\
  try_play dbg g (MPlay 2 1) = Ok (g', Accepted) /\ rtc (rspares dbg (6, 3) Black [[(0, 0)]; [(0, 2)]]) g g' /\
  (forall i l, wheel i l ≡ₚ l) /\ playout 100 0 wheel dbg g = Ok h /\
  answers_offered dbg last_move g /\ dead_stones 100 last_move dbg g = Ok l /\
  get_floating_stones dbg g = Ok [0] /\ group_no (gm_goban g) (1, 1) = Some 0.
Proof. exact (case_rlife dbg). Qed.

(** C113: dead_stones never reports a chain with two solid eyes, whatever the tree search answers. *)
Theorem C113_solid_eyes_never_dead dbg n b w c p e1 e2 g search fuel k l : Nat.divide (snd n) (fst n) -> rgreach dbg n b w g -> forbids_suicide (gm_rule g) = true ->
  ron n p -> position g p = Some c -> e1 <> e2 -> rsolid_eye n (position g) p e1 -> rsolid_eye n (position g) p e2 ->
  answers_offered dbg search g ->
  dead_stones fuel search dbg g = Ok l -> group_no (gm_goban g) p = Some k -> k ∉ l.
Proof. exact (rnever_dead dbg n b w c p e1 e2 g search fuel k l). Qed.
Print Assumptions C113_solid_eyes_never_dead.

Example C113_solid_eyes_never_dead_case dbg : exists g b w g' h l, Nat.divide 3 6 /\ 6 = 2 * 3 /\ rgreach dbg (6, 3) b w g /\ forbids_suicide (gm_rule g) = true /\
  ron (6, 3) (1, 1) /\ position g (1, 1) = Some Black /\
  ralive (6, 3) (position g) Black tall_wall [[(0, 0)]; [(0, 2)]] /\
  rsolid_eye (6, 3) (position g) (1, 1) (0, 0) /\ rsolid_eye (6, 3) (position g) (1, 1) (0, 2) /\
  try_play dbg g (MPlay 2 1) = Ok (g', Accepted) /\ rtc (rspares dbg (6, 3) Black [[(0, 0)]; [(0, 2)]]) g g' /\
  (forall i l, wheel i l ≡ₚ l) /\ playout 100 0 wheel dbg g = Ok h /\
  answers_offered dbg last_move g /\ dead_stones 100 last_move dbg g = Ok l /\
  get_floating_stones dbg g = Ok [0] /\ group_no (gm_goban g) (1, 1) = Some 0.
Proof. exact (case_rlife dbg). Qed.

(** C113: every group dead_stones reports touches m points of the upper square with the shape of an eye, k m being at least three on a board k times as high as wide. *)
Theorem C113_reported_groups_have_eyes dbg n b w g k search fuel i l : fst n = (k * snd n)%nat -> rgreach dbg n b w g ->
  answers_offered dbg search g ->
  dead_stones fuel search dbg g = Ok l -> i ∈ l ->
  exists m, (3 <= k * m)%nat /\ card (fun p => in_square n p /\ rsome_eye n g p /\ rnear_group n (gm_goban g) i p) m.
Proof. exact (rreported_have_eyes dbg n b w g k search fuel i l). Qed.
Print Assumptions C113_reported_groups_have_eyes.

Example C113_reported_groups_have_eyes_case dbg : exists g b w, fst (9, 3) = 3 * snd (9, 3) /\ Nat.divide 3 9 /\ rgreach dbg (9, 3) b w g /\ ~ no_slot_left g /\ gm_passes g <> 2 /\
  legals_moves dbg g = Ok [MPlay 0 0; MPlay 0 0; MPlay 0 0] /\
  answers_offered dbg last_move g /\ get_floating_stones dbg g = Ok [2] /\ group_no (gm_goban g) (1, 1) = Some 2 /\ dead_stones 60 last_move dbg g = Ok [2].
Proof. exact (case_rsearch dbg). Qed.

(** C114: an accepted stone leaves the position as it was exactly if it is a suicide of a single stone. *)
Theorem C114_one_stone dbg n b w g x y g' : Nat.divide (snd n) (fst n) -> rgreach dbg n b w g -> ron n (x, y) -> try_play dbg g (MPlay x y) = Ok (g', Accepted) ->
  rsame_pos n (position g') (position g) <->
  forbids_suicide (gm_rule g) = false /\ rwalled_in n (position g) (gm_turn g) (x, y) /\ ~ rcaptures n (position g) (x, y) (gm_turn g).
Proof. exact (runchanged dbg n b w g x y g'). Qed.
Print Assumptions C114_one_stone.

Example C114_one_stone_case dbg : exists b w g g1 g2, Nat.divide 4 8 /\ rgreach dbg (8, 4) b w g /\
  ron (8, 4) (0, 0) /\ try_play dbg g (MPlay 0 0) = Ok (g1, Accepted) /\ rsame_pos (8, 4) (position g1) (position g) /\
  ron (8, 4) (7, 3) /\ try_play dbg g (MPlay 7 3) = Ok (g2, Accepted) /\ ~ rsame_pos (8, 4) (position g2) (position g).
Proof. exact (rcase_unchanged dbg). Qed.

(** C114: where ko and suicide are forbidden and superko is not, two stones in a row do not bring a position back. *)
Theorem C114_two_stones dbg n g0 x y g1 a b g2 : Nat.divide (snd n) (fst n) -> rlreach dbg n g0 -> forbids_ko (gm_rule g0) = true -> forbids_suicide (gm_rule g0) = true ->
  forbids_superko (gm_rule g0) = false -> ron n (x, y) -> try_play dbg g0 (MPlay x y) = Ok (g1, Accepted) ->
  ron n (a, b) -> try_play dbg g1 (MPlay a b) = Ok (g2, Accepted) ->
  ~ rsame_pos n (position g1) (position g0) /\ ~ rsame_pos n (position g2) (position g1) /\ ~ rsame_pos n (position g2) (position g0).
Proof. exact (rtwo_stones dbg n g0 x y g1 a b g2). Qed.
Print Assumptions C114_two_stones.

Example C114_two_stones_case dbg : exists g g',
  Nat.divide 4 8 /\ rlreach dbg (8, 4) g /\ ron (8, 4) (1, 2) /\ forbids_ko (gm_rule g) = true /\ forbids_suicide (gm_rule g) = true /\
  forbids_superko (gm_rule g) = false /\ forbids_fill_eye (gm_rule g) = false /\
  try_play dbg g (MPlay 1 2) = Ok (g', Accepted) /\ position g (1, 1) = Some White /\ position g' (1, 1) = None /\ rlreach dbg (8, 4) g' /\
  ron (8, 4) (1, 1) /\ try_play dbg g' (MPlay 1 1) = Ok (g', Refused EKo) /\
  ron (8, 4) (7, 3) /\ exists g'', try_play dbg g' (MPlay 7 3) = Ok (g'', Accepted).
Proof. exact (rcase_legal dbg). Qed.
