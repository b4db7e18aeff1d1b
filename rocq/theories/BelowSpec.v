(** Coordinates in the columns of the board but below its last row: they have an index
    of the 361 slots that the board of n x n points does not show. *)
From Verif Require Export OverSpec.

Definition below (n : nat) (p : coord) : Prop :=
  n <= fst p < 255 /\ snd p < n /\ fst p * n + snd p < 361.

(** the coordinate with the index of [(x, y)] whose column is on the board *)
Definition home (n x y : nat) : coord := ((x * n + y) / n, (x * n + y) mod n).

(** The move returns: its index is below 361, and in debug builds it lands on an
    empty point of the board or next to no stone. *)
Definition playable (dbg : bool) (n : nat) (g : game) (x y : nat) : Prop :=
  x * n + y < 361 /\
  (dbg = true -> (on n (home n x y) /\ position g (home n x y) = None) \/
                 forall q, on n q -> adj (home n x y) q -> position g q = None).
