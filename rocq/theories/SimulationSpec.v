(** What is assumed of the choices of the tree search. *)
From Verif Require Export PlayoutSpec Simulation.

(** Shuffles rearrange, and the best move is one of those offered. *)
Definition fair (nb : nat) (ch : choices) : Prop :=
  (forall j i l, ch_shuffles ch j i l ≡ₚ l) /\
  (forall rewards ms, length rewards = nb -> ms <> [] -> (ch_best ch rewards ms < length ms)%nat).
