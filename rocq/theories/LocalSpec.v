(** The part of the board on which the fate of a stone depends. *)
From Verif Require Export Coord Spec RectSpec.

(** the point [p], the points next to it, the stones of the chains that touch it
    and the points next to these stones *)
Definition near (s : nat * nat) (P : pos) (p q : coord) : Prop :=
  q = p \/ adj p q \/
  exists t a, ron s t /\ adj p t /\ P t <> None /\ rconnected s P t a /\ (q = a \/ adj a q).

(** two positions that cannot be told apart near [p] *)
Definition alike_near (s : nat * nat) (p : coord) (P Q : pos) : Prop :=
  forall q, ron s q -> near s P p q -> P q = Q q.

(** nothing is near both points *)
Definition far_apart (s : nat * nat) (P : pos) (p q : coord) : Prop :=
  forall r, ron s r -> near s P p r -> near s P q r -> False.

(** at most two rows and two columns away *)
Definition within_two (p q : coord) : Prop :=
  (fst q <= fst p + 2 /\ fst p <= fst q + 2 /\ snd q <= snd p + 2 /\ snd p <= snd q + 2)%nat.
