(** Games with the same recorded positions. *)
From Verif Require Export PastSpec.

(** the position [P] is in the history of [g] *)
Definition on_record (n : nat * nat) (g : game) (P : pos) : Prop :=
  exists y, y ∈ gm_history g /\ forall p, ron n p -> P p = pos_of y p.

(** the same positions are in the two histories, in any order *)
Definition same_record (n : nat * nat) (g h : game) : Prop :=
  forall P, on_record n g P <-> on_record n h P.
