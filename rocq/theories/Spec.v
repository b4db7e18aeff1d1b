(** The rules of Go on a square board, written without reference to the model:
    positions as functions from coordinates to colours.  These definitions are
    the yardstick of the theorems. *)
From stdpp Require Import relations.
From Verif Require Import Coord.

Global Instance color_eq_dec : EqDecision color.
Proof. solve_decision. Defined.

Definition pos := coord -> option color.

(** on the n x n board; orthogonally adjacent *)
Definition on (n : nat) (p : coord) : Prop := (fst p < n /\ snd p < n)%nat.

Definition adj (p q : coord) : Prop :=
  (fst p = fst q /\ (snd p = S (snd q) \/ snd q = S (snd p))) \/
  (snd p = snd q /\ (fst p = S (fst q) \/ fst q = S (fst p))).

(** all points of the board, row by row *)
Definition points (n : nat) : list coord := list_prod (seq 0 n) (seq 0 n).

(** Connection through adjacent points of the same contents: the chain of a
    stone, or the empty region of an empty point. *)
Definition cstep (n : nat) (P : pos) (a b : coord) : Prop :=
  on n a /\ on n b /\ adj a b /\ P a = P b.
Definition connected (n : nat) (P : pos) : coord -> coord -> Prop := rtc (cstep n P).

(** [l] is a liberty of the chain of [p] *)
Definition liberty (n : nat) (P : pos) (p l : coord) : Prop :=
  on n l /\ P l = None /\ exists q, connected n P p q /\ adj q l.

(** the chain of [p] has a liberty *)
Definition breathes (n : nat) (P : pos) (p : coord) : Prop := exists l, liberty n P p l.

(** every chain on the board has a liberty *)
Definition all_breathe (n : nat) (P : pos) : Prop :=
  forall p, on n p -> P p <> None -> breathes n P p.

(** agreement on the board *)
Definition same_pos (n : nat) (P Q : pos) : Prop := forall p, on n p -> P p = Q p.

(** put a stone *)
Definition put (P : pos) (p : coord) (c : color) : pos :=
  fun q => if decide (q = p) then Some c else P q.

(** [Q] is [P] without the points satisfying [D] *)
Definition cleared (n : nat) (D : coord -> Prop) (P Q : pos) : Prop :=
  forall q, on n q -> (D q -> Q q = None) /\ (~ D q -> Q q = P q).

(** With [P] the position where [c] has just put a stone on [p]: the stones of
    the chains of the other colour that touch [p] and have no liberty. *)
Definition taken (n : nat) (P : pos) (p : coord) (c : color) (q : coord) : Prop :=
  exists t, on n t /\ adj p t /\ P t = Some (opp c) /\ connected n P t q /\ ~ breathes n P t.

(** All stones of the other colour without liberty (Tromp-Taylor wording). *)
Definition taken_anywhere (n : nat) (P : pos) (c : color) (q : coord) : Prop :=
  P q = Some (opp c) /\ ~ breathes n P q.

(** A move: put the stone, clear what is taken; then, if [suicide] is allowed,
    clear the chain of the stone if it has no liberty left. *)
Definition go_move (suicide : bool) (n : nat) (P : pos) (p : coord) (c : color) (R : pos) : Prop :=
  exists Q, cleared n (taken n (put P p c) p c) (put P p c) Q /\
            cleared n (fun q => suicide = true /\ ~ breathes n Q p /\ connected n Q p q) Q R.

(** The same with the global wording of Tromp-Taylor for both clearing steps. *)
Definition tromp_taylor_move (n : nat) (P : pos) (p : coord) (c : color) (R : pos) : Prop :=
  exists Q, cleared n (taken_anywhere n (put P p c) c) (put P p c) Q /\
            cleared n (taken_anywhere n Q (opp c)) Q R.

(** the move is a suicide: after the captures its chain has no liberty *)
Definition suicidal (n : nat) (P : pos) (p : coord) (c : color) : Prop :=
  exists Q, cleared n (taken n (put P p c) p c) (put P p c) Q /\ ~ breathes n Q p.

(** exactly one chain of colour [c] touches [p] *)
Definition one_friend (n : nat) (P : pos) (p : coord) (c : color) : Prop :=
  exists q, on n q /\ adj p q /\ P q = Some c /\
    forall q', on n q' -> adj p q' -> P q' = Some c -> connected n P q q'.

(** number of stones of a colour *)
Definition count (n : nat) (P : pos) (c : color) : nat :=
  length (filter (fun p => P p = Some c) (points n)).

(** number of points satisfying a decidable property *)
Definition holds_at {A} (l : list A) (D : A -> Prop) `{!forall x, Decision (D x)} : nat :=
  length (filter D l).

(** diagonal adjacency *)
Definition diag (p q : coord) : Prop :=
  (fst p = S (fst q) \/ fst q = S (fst p)) /\ (snd p = S (snd q) \/ snd q = S (snd p)).

(** the region of [p] touches a stone of colour [c] *)
Definition touches (n : nat) (P : pos) (p : coord) (c : color) : Prop :=
  exists q r, connected n P p q /\ on n r /\ adj q r /\ P r = Some c.

(** [p] is an empty point whose region touches stones of colour [c] only *)
Definition owned (n : nat) (P : pos) (c : color) (p : coord) : Prop :=
  on n p /\ P p = None /\ touches n P p c /\ ~ touches n P p (opp c).
