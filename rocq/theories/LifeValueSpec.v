(** How much living stones are worth under area counting. *)
From Verif Require Export Observe StrategySpec.
From Coq Require Import ZArith.

(** the komi in half points, where it counts *)
Definition counted_komi (flags : N) (k2 : Z) : Z := if N.testbit flags 1 then k2 else 0%Z.

(** by how much the stones [X] and the eyes [E] of [c] outweigh the rest of the board and the komi, in half points *)
Definition lead (n : nat) (c : color) (X E : list coord) (flags : N) (k2 : Z) : Z :=
  (4 * Z.of_nat (length X + length E) - 2 * Z.of_nat (n * n) + match c with Black => - counted_komi flags k2 | White => counted_komi flags k2 end)%Z.

(** an accepted move, and no stone of [c] inside a region of [F] *)
Definition careful (dbg : bool) (n : nat) (c : color) (F : list (list coord)) (g g' : game) : Prop :=
  exists m, may_play dbg (n, n) g m g' /\ (gm_turn g = c -> forall x y, m = MPlay x y -> forall R, R ∈ F -> (x, y) ∉ R).
