(** As [CycleSpec.v], on a board with [fst s] rows and [snd s] columns. *)
From Verif Require Import Coord Spec RectSpec.

(** [c] would have a lone stone on [p], with stones of the other colour all around *)
Definition rwalled_in (s : nat * nat) (P : pos) (c : color) (p : coord) : Prop :=
  forall q, ron s q -> adj p q -> P q = Some (opp c).
