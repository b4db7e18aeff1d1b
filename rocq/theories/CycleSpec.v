(** A point where a stone of [c] would be alone among stones of the other colour. *)
From Verif Require Import Coord Spec.

(** [c] would have a lone stone on [p], with stones of the other colour all around *)
Definition walled_in (n : nat) (P : pos) (c : color) (p : coord) : Prop :=
  forall q, on n q -> adj p q -> P q = Some (opp c).
