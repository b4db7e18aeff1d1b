(** Counting moves, and area against territory. *)
From Verif Require Export Observe ScoreSpec.

(** stone moves and passes made by [c] in a list of moves, if [turn] makes the first *)
Fixpoint stone_moves (turn c : color) (ms : list move) : nat :=
  match ms with
  | [] => 0
  | m :: ms => (match m with MPlay _ _ => if decide (turn = c) then 1 else 0 | _ => 0 end
                + stone_moves (opp turn) c ms)%nat
  end.
Fixpoint pass_moves (turn c : color) (ms : list move) : nat :=
  match ms with
  | [] => 0
  | m :: ms => (match m with MPass => if decide (turn = c) then 1 else 0 | _ => 0 end
                + pass_moves (opp turn) c ms)%nat
  end.

(** stones on the board and passes only *)
Definition plain (n : nat) (m : move) : Prop :=
  match m with MPlay x y => on n (x, y) | MPass => True | MResign _ => False end.

(** every move of the list is accepted, one after the other *)
Fixpoint all_accepted (dbg : bool) (g : game) (ms : list move) (g' : game) : Prop :=
  match ms with
  | [] => g' = g
  | m :: ms => exists g1, try_play dbg g m = Ok (g1, Accepted) /\ all_accepted dbg g1 ms g'
  end.

(** empty points that are nobody's territory *)
Definition neutral (n : nat) (P : pos) (p : coord) : Prop :=
  on n p /\ P p = None /\ ~ owned n P Black p /\ ~ owned n P White p.
