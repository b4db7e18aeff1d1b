(** Boards of any size: C117, C118 *)
From stdpp Require Import relations sorting strings.
From Verif Require Import Spec Reach Observe Samples RectSpec TableSpec RectTableSpec AnySpec AnyClaims.
Local Notation length := Datatypes.length.
Open Scope nat_scope.

(** C117: checked calls on a board are always answered in release builds; in debug builds they are exactly if the width divides the height. *)
Theorem C117_which_boards_answer dbg s : board_size s -> (answers dbg s <-> dbg = false \/ Nat.divide (snd s) (fst s)).
Proof. exact (any_answers dbg s). Qed.
Print Assumptions C117_which_boards_answer.

Example C117_which_boards_answer_case : board_size (5, 4)%nat /\ ~ Nat.divide 4 5 /\ ~ answers true (5, 4)%nat /\ answers false (5, 4)%nat /\
  board_size (8, 4)%nat /\ Nat.divide 4 8 /\ answers true (8, 4)%nat /\
  exists g, game_new (Custom 5 4) JAPANESE = Ok g /\ rguarded (5, 4)%nat (OTry (MPlay 1 0)) /\ rguarded (5, 4)%nat (OTry (MPlay 0 0)) /\
    calls true g [OTry (MPlay 1 0); OTry (MPlay 0 0)] = Panic.
Proof. exact case_any_answers. Qed.

(** C117: in release builds any list of calls to try_play, resume and set_komi is answered, as long as the points have cells in the array of 361. *)
Theorem C117_runs_answered s sz r ops : board_size s -> size_of sz = s -> (forall o, o ∈ ops -> aguarded s o) -> (N.of_nat (all_stones ops) <= 65535)%N ->
  exists g g' l b w, game_new sz r = Ok g /\ calls false g ops = Ok (g', l) /\ length l = length ops /\ areach s b w g' /\ (b + w <= all_stones ops)%nat.
Proof. exact (any_runs s sz r ops). Qed.
Print Assumptions C117_runs_answered.

Example C117_runs_answered_case : board_size (5, 4)%nat /\ size_of (Custom 5 4) = (5, 4)%nat /\ (forall o, o ∈ odd_ops -> aguarded (5, 4)%nat o) /\ (N.of_nat (all_stones odd_ops) <= 65535)%N /\
  exists g g', game_new (Custom 5 4) JAPANESE = Ok g /\ calls false g odd_ops = Ok (g', replicate 4 (Some Accepted)) /\ gm_prisoners g' = (1, 0)%N.
Proof. exact case_any_runs. Qed.

(** C117: in release builds try_play of a stone panics exactly if the game is not paused and the point has no cell, and it never loops. *)
Theorem C117_exact_panics s b w g x y : areach s b w g -> (N.of_nat (b + w) < 65535)%N ->
  (try_play false g (MPlay x y) = Panic <-> gm_passes g <> 2%nat /\ (361 <= cell_of s (x, y))%nat) /\
  try_play false g (MPlay x y) <> Diverge.
Proof. exact (any_panics s b w g x y). Qed.
Print Assumptions C117_exact_panics.

Example C117_exact_panics_case : exists g b w g', areach (5, 4)%nat b w g /\ (N.of_nat (b + w) < 65535)%N /\ gm_passes g <> 2%nat /\
  cell_of (5, 4) (72, 1) = 361%nat /\ try_play false g (MPlay 72 1) = Panic /\
  cell_of (5, 4) (5, 0) = 25%nat /\ try_play false g (MPlay 5 0) = Ok (g', Accepted).
Proof. exact case_any_panics. Qed.

(** C117: the checks of a point, the legal moves, the score and the outcome are answered as well, whatever the iteration order of the hash sets. *)
Theorem C117_queries_answered s b w g : areach s b w g -> (N.of_nat (b + w) < 65535)%N ->
  (forall p flags, (cell_of s p < 361)%nat -> exists e, check_point_by false g p flags = Ok e) /\
  (forall flags, exists l, legals_by false g flags = Ok l) /\
  (forall order flags, exists bw, calculate_score_by order false g flags = Ok bw) /\
  (forall order, exists o, outcome order false g = Ok o).
Proof. exact (any_queries s b w g). Qed.
Print Assumptions C117_queries_answered.

Example C117_queries_answered_case : exists g b w l bw, areach (5, 4)%nat b w g /\ (N.of_nat (b + w) < 65535)%N /\
  check_point_by false g (3, 4)%nat SUICIDE = Ok (Some ESuicide) /\ legals_by false g 0%N = Ok l /\ l <> [] /\
  calculate_score_by (fun l => l) false g (N.lor PRISONNERS KOMI) = Ok bw.
Proof. exact case_any_queries. Qed.

(** C118: in release builds on boards of any size, stones in the array and prisoners add up to the stones put down, and number_of_stones counts the stones in the array. *)
Theorem C118_stones_accounted s b w g : areach s b w g -> exists v, to_vec (gm_goban g) = Ok v /\ length v = 361%nat /\
  number_of_stones (gm_goban g) = (count_of Black v, count_of White v) /\
  (N.of_nat (count_of Black v) + snd (gm_prisoners g) = N.of_nat b)%N /\
  (N.of_nat (count_of White v) + fst (gm_prisoners g) = N.of_nat w)%N /\
  forall p, (cell_of s p < 361)%nat -> v !! cell_of s p = Some (pos_of (gm_goban g) p).
Proof. exact (any_stones s b w g). Qed.
Print Assumptions C118_stones_accounted.

Example C118_stones_accounted_case : exists g, areach (5, 4)%nat 2 2 g /\ gm_prisoners g = (1, 0)%N /\ number_of_stones (gm_goban g) = (2, 1)%nat /\
  pos_of (gm_goban g) (1, 0) = Some Black /\ pos_of (gm_goban g) (0, 0) = None /\ pos_of (gm_goban g) (3, 3) = Some White.
Proof. exact case_any_stones. Qed.

(** C118: an accepted stone changes nothing but its own cell, other than emptying cells; where suicide is forbidden it stays, as do all stones of its colour. *)
Theorem C118_accepted_move s b w g x y g' : areach s b w g -> (N.of_nat (b + w) < 65535)%N -> try_play false g (MPlay x y) = Ok (g', Accepted) ->
  (cell_of s (x, y) < 361)%nat /\ pos_of (gm_goban g) (x, y) = None /\
  areach s (fst (bump_count (gm_turn g) (b, w))) (snd (bump_count (gm_turn g) (b, w))) g' /\ gm_turn g' = opp (gm_turn g) /\
  (forall p, (cell_of s p < 361)%nat -> cell_of s p <> cell_of s (x, y) ->
     pos_of (gm_goban g') p = pos_of (gm_goban g) p \/ pos_of (gm_goban g') p = None) /\
  (pos_of (gm_goban g') (x, y) = Some (gm_turn g) \/ pos_of (gm_goban g') (x, y) = None) /\
  (flag_contains (flag_illegal (gm_rule g)) SUICIDE = true ->
     pos_of (gm_goban g') (x, y) = Some (gm_turn g) /\
     forall p, (cell_of s p < 361)%nat -> pos_of (gm_goban g) p = Some (gm_turn g) -> pos_of (gm_goban g') p = Some (gm_turn g)).
Proof. exact (any_move s b w g x y g'). Qed.
Print Assumptions C118_accepted_move.

Example C118_accepted_move_case : exists g b w g', areach (5, 4)%nat b w g /\ (N.of_nat (b + w) < 65535)%N /\ try_play false g (MPlay 0 1) = Ok (g', Accepted) /\
  flag_contains (flag_illegal (gm_rule g)) SUICIDE = true /\ gm_turn g = Black /\ pos_of (gm_goban g) (1, 0) = Some Black /\
  pos_of (gm_goban g) (0, 0) = Some White /\ pos_of (gm_goban g') (0, 0) = None.
Proof. exact case_any_move. Qed.

(** C118: two games with the same array have the same hash and equal boards. *)
Theorem C118_same_array_same_board s b w g b' w' g' : areach s b w g -> areach s b' w' g' -> to_vec (gm_goban g) = to_vec (gm_goban g') ->
  zobrist_hash (gm_goban g) = zobrist_hash (gm_goban g') /\ goban_eq (gm_goban g) (gm_goban g') = Ok true.
Proof. exact (any_same s b w g b' w' g'). Qed.
Print Assumptions C118_same_array_same_board.

Example C118_same_array_same_board_case : exists g b w g' b' w', areach (5, 4)%nat b w g /\ areach (5, 4)%nat b' w' g' /\ to_vec (gm_goban g) = to_vec (gm_goban g') /\
  gm_prisoners g = (1, 0)%N /\ gm_prisoners g' = (0, 0)%N.
Proof. exact case_any_same. Qed.
