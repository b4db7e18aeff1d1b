(** How soon a position can come back: C107 *)
From stdpp Require Import relations sorting strings.
From Verif Require Import Spec Reach Observe Samples CycleSpec CycleClaims.
Local Notation length := Datatypes.length.
Open Scope nat_scope.

(** C107: an accepted stone leaves the position as it was exactly if it is a suicide of a single stone. *)
Theorem C107_one_stone dbg n b w g x y g' : greach dbg n b w g -> on n (x, y) -> try_play dbg g (MPlay x y) = Ok (g', Accepted) ->
  same_pos n (position g') (position g) <->
  forbids_suicide (gm_rule g) = false /\ walled_in n (position g) (gm_turn g) (x, y) /\ ~ captures n (position g) (x, y) (gm_turn g).
Proof. exact (unchanged dbg n b w g x y g'). Qed.
Print Assumptions C107_one_stone.

Example C107_one_stone_case dbg : exists b w g g1 g2, greach dbg 4 b w g /\
  on 4 (0, 0) /\ try_play dbg g (MPlay 0 0) = Ok (g1, Accepted) /\ same_pos 4 (position g1) (position g) /\
  on 4 (3, 3) /\ try_play dbg g (MPlay 3 3) = Ok (g2, Accepted) /\ ~ same_pos 4 (position g2) (position g).
Proof. exact (case_unchanged dbg). Qed.

(** C107: where ko and suicide are forbidden and superko is not, two stones in a row do not bring a position back. *)
Theorem C107_two_stones dbg n g0 x y g1 a b g2 : lreach dbg n g0 -> forbids_ko (gm_rule g0) = true -> forbids_suicide (gm_rule g0) = true ->
  forbids_superko (gm_rule g0) = false -> on n (x, y) -> try_play dbg g0 (MPlay x y) = Ok (g1, Accepted) ->
  on n (a, b) -> try_play dbg g1 (MPlay a b) = Ok (g2, Accepted) ->
  ~ same_pos n (position g1) (position g0) /\ ~ same_pos n (position g2) (position g1) /\ ~ same_pos n (position g2) (position g0).
Proof. exact (two_stones dbg n g0 x y g1 a b g2). Qed.
Print Assumptions C107_two_stones.

Example C107_two_stones_case dbg : exists g0 g1 g2, lreach dbg 9 g0 /\ forbids_ko (gm_rule g0) = true /\ forbids_suicide (gm_rule g0) = true /\
  forbids_superko (gm_rule g0) = false /\ on 9 (1, 2) /\ try_play dbg g0 (MPlay 1 2) = Ok (g1, Accepted) /\
  on 9 (5, 5) /\ try_play dbg g1 (MPlay 5 5) = Ok (g2, Accepted) /\ try_play dbg g1 (MPlay 1 1) = Ok (g1, Refused EKo).
Proof. exact (case_two_stones dbg). Qed.

(** C107: with two passes and a resumption in between, two stones can bring a position back, with the same player to move. *)
Theorem C107_two_stones_with_passes_refuted dbg : exists g0 g1 g2 g3, lreach dbg 9 g0 /\ flag_illegal (gm_rule g0) = flag_illegal JAPANESE /\
  try_play dbg g0 (MPlay 1 2) = Ok (g1, Accepted) /\
  (exists h1 h2, try_play dbg g1 MPass = Ok (h1, Accepted) /\ try_play dbg h1 MPass = Ok (h2, Accepted) /\ g2 = resume h2) /\
  try_play dbg g2 (MPlay 1 1) = Ok (g3, Accepted) /\ same_pos 9 (position g3) (position g0) /\ gm_turn g3 = gm_turn g0.
Proof. exact (two_with_passes dbg). Qed.
Print Assumptions C107_two_stones_with_passes_refuted.

(** C107: three stones in a row can bring a position back under Japanese rules: two stones are captured, and one is captured back. *)
Theorem C107_three_stones_refuted dbg : exists g0 g1 g2 g3, lreach dbg 4 g0 /\ flag_illegal (gm_rule g0) = flag_illegal JAPANESE /\
  try_play dbg g0 (MPlay 0 0) = Ok (g1, Accepted) /\ try_play dbg g1 (MPlay 0 2) = Ok (g2, Accepted) /\ try_play dbg g2 (MPlay 0 1) = Ok (g3, Accepted) /\
  same_pos 4 (position g3) (position g0) /\ gm_turn g3 = opp (gm_turn g0).
Proof. exact (three_stones dbg). Qed.
Print Assumptions C107_three_stones_refuted.

Example C107_three_stones_refuted_case dbg : exists g0 g1 g2, lreach dbg 4 g0 /\ flag_illegal (gm_rule g0) = flag_illegal CHINESE /\
  try_play dbg g0 (MPlay 0 0) = Ok (g1, Accepted) /\ try_play dbg g1 (MPlay 0 2) = Ok (g2, Accepted) /\ try_play dbg g2 (MPlay 0 1) = Ok (g2, Refused EKo).
Proof. exact (third_refused dbg). Qed.
