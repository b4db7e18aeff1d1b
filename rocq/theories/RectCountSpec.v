(** What the library counts as territory on a board with [fst n] rows and [snd n]
    columns when its list of empty points is not what it should be (C110). *)
From Verif Require Export Coord Spec RectSpec.
From stdpp Require Import relations.
Open Scope nat_scope.

(** the point [p] and all empty regions it is next to *)
Definition rspread (n : nat * nat) (P : pos) (p q : coord) : Prop :=
  q = p \/ exists r, ron n r /\ adj p r /\ P r = None /\ rconnected n P r q.

(** The regions taken up one after the other from a list of points: a point in a
    region taken before is passed over, any other gives a new region. *)
Inductive rchosen (n : nat * nat) (P : pos) : list (list coord) -> list coord -> list (list coord) -> Prop :=
| rt_end G : rchosen n P G [] G
| rt_seen G p l G' : (exists R, R ∈ G /\ p ∈ R) -> rchosen n P G l G' -> rchosen n P G (p :: l) G'
| rt_new G p R l G' : (forall R', R' ∈ G -> p ∉ R') -> NoDup R -> (forall q, q ∈ R <-> rspread n P p q) ->
    rchosen n P (G ++ [R]) l G' -> rchosen n P G (p :: l) G'.

(** a stone of colour [c] is next to one of the points *)
Definition rborders (n : nat * nat) (P : pos) (c : color) (D : coord -> Prop) : Prop :=
  exists q r, D q /\ ron n r /\ adj q r /\ P r = Some c.

(** stones of colour [c] and no others are next to the points *)
Definition ronly (n : nat * nat) (P : pos) (c : color) (D : coord -> Prop) : Prop :=
  rborders n P c D /\ ~ rborders n P (opp c) D.

(** [l] is made up of the regions with stones of colour [c] and no others next to them *)
Definition rcounted (n : nat * nat) (P : pos) (c : color) (G : list (list coord)) (l : list coord) : Prop :=
  exists f : list coord -> bool, (forall R, R ∈ G -> f R = true <-> ronly n P c (fun q => q ∈ R)) /\
    l ≡ₚ concat (List.filter f G).

(** [p] is a stone in the upper square of the board that makes [q] count for [c]: [q] is
    [p] or in an empty region next to it, and only stones of colour [c] are next to these *)
Definition stone_counts (n : nat * nat) (P : pos) (c : color) (q p : coord) : Prop :=
  ron n p /\ fst p < snd n /\ P p <> None /\ rspread n P p q /\ ronly n P c (rspread n P p).

(** [q] is in an empty region that reaches the first row, and only stones of colour [c] are next to it *)
Definition region_counts (n : nat * nat) (P : pos) (c : color) (q : coord) : Prop :=
  P q = None /\ (exists p, ron n p /\ fst p = 0 /\ rconnected n P p q) /\ ronly n P c (rconnected n P q).
