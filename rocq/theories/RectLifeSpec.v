(** Unconditional life, as in [LifeSpec.v], on a board with [fst n] rows and [snd n]
    columns. *)
From stdpp Require Import relations.
From Verif Require Export Observe RectSpec.

(** [R] is a region closed off by the stones [X]: points of the board without a
    stone of colour [c], at least one of them empty; whatever is next to [R] and
    not in [R] is one of the stones [X]. *)
Definition rclosed_region (n : nat * nat) (P : pos) (c : color) (X R : list coord) : Prop :=
  (forall p, p ∈ R -> ron n p /\ P p <> Some c) /\
  (exists p, p ∈ R /\ P p = None) /\
  (forall p q, p ∈ R -> ron n q -> adj p q -> q ∈ R \/ q ∈ X).

(** the region is vital to the chain of [x]: each empty point of it is a liberty *)
Definition rvital (n : nat * nat) (P : pos) (x : coord) (R : list coord) : Prop :=
  forall p, p ∈ R -> P p = None -> rliberty n P x p.

(** The stones [X] of colour [c] close off the regions [F], and two disjoint
    regions are vital to each of the stones. *)
Definition ralive (n : nat * nat) (P : pos) (c : color) (X : list coord) (F : list (list coord)) : Prop :=
  (forall x, x ∈ X -> ron n x /\ P x = Some c) /\
  (forall R, R ∈ F -> rclosed_region n P c X R) /\
  (forall x, x ∈ X -> exists R1 R2, R1 ∈ F /\ R2 ∈ F /\ (forall p, p ∈ R1 -> p ∉ R2) /\
                                    rvital n P x R1 /\ rvital n P x R2).

(** One call that leaves the regions [F] to the opponent of [c]: any stone move
    on the board except an accepted move of [c] inside a region, any pass or
    resignation, [resume], [set_komi]. *)
Definition rspares (dbg : bool) (n : nat * nat) (c : color) (F : list (list coord)) (g g' : game) : Prop :=
  (exists x y v, ron n (x, y) /\ try_play dbg g (MPlay x y) = Ok (g', v) /\
                 (gm_turn g = c -> v = Accepted -> forall R, R ∈ F -> (x, y) ∉ R)) \/
  (exists v, try_play dbg g MPass = Ok (g', v)) \/
  (exists r v, try_play dbg g (MResign r) = Ok (g', v)) \/
  g' = resume g \/ (exists k, g' = set_komi g k).

(** [e] is an empty point, and all the points around it belong to the chain of [p]. *)
Definition rsolid_eye (n : nat * nat) (P : pos) (p e : coord) : Prop :=
  rliberty n P p e /\ forall q, ron n q -> adj e q \/ diag e q -> rconnected n P p q.
