(** What the library takes for an eye, in terms of positions. *)
From stdpp Require Import relations.
From Verif Require Export Coord Spec.

(** the four diagonal directions (row, column), in the order of inspection *)
Definition directions : list (Z * Z) := [(1, 1); (-1, -1); (1, -1); (-1, 1)]%Z.

(** [q] lies in direction [d] from [p] *)
Definition corner (p : coord) (d : Z * Z) (q : coord) : Prop :=
  Z.of_nat (fst q) = (Z.of_nat (fst p) + fst d)%Z /\ Z.of_nat (snd q) = (Z.of_nat (snd p) + snd d)%Z.

(** the corner of [p] in direction [d] is off the board or carries a stone of colour [c] *)
Definition safe_corner (n : nat) (P : pos) (c : color) (p : coord) (d : Z * Z) : Prop :=
  forall q, on n q -> corner p d q -> P q = Some c.

(** exactly [k] of the four corners of [p] are safe *)
Definition safe_corners (n : nat) (P : pos) (c : color) (p : coord) (k : nat) : Prop :=
  exists l, NoDup l /\ length l = k /\ forall d, d ∈ l <-> d ∈ directions /\ safe_corner n P c p d.

(** the empty corner of [p] in direction [d] *)
Definition hole (n : nat) (P : pos) (p : coord) (d : Z * Z) (q : coord) : Prop :=
  on n q /\ corner p d q /\ P q = None.

(** a stone of the other colour stands next to [q] *)
Definition attacked (n : nat) (P : pos) (c : color) (q : coord) : Prop :=
  exists r, on n r /\ adj q r /\ P r = Some (opp c).

(** An empty point with stones of colour [c] on all neighbouring points such that
    all corners are safe; or two or three are, and one of the empty corners has
    two or three safe corners itself, neither it nor an empty corner inspected
    before it being attacked. *)
Definition eye_shape (n : nat) (P : pos) (c : color) (p : coord) : Prop :=
  P p = None /\ (forall q, on n q -> adj p q -> P q = Some c) /\
  (safe_corners n P c p 4 \/
   (safe_corners n P c p 3 \/ safe_corners n P c p 2) /\
   exists i d q, directions !! i = Some d /\ hole n P p d q /\ ~ attacked n P c q /\
     (safe_corners n P c q 3 \/ safe_corners n P c q 2) /\
     forall j d' q', (j < i)%nat -> directions !! j = Some d' -> hole n P p d' q' -> ~ attacked n P c q').
