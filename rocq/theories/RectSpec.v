(** The rules of Go on a board with [fst s] rows and [snd s] columns, written
    without reference to the model, like [Spec.v] for square boards. *)
From stdpp Require Import relations.
From Verif Require Import Coord Spec.

(** on the board *)
Definition ron (s : nat * nat) (p : coord) : Prop := (fst p < fst s /\ snd p < snd s)%nat.

(** all points of the board, row by row *)
Definition rpoints (s : nat * nat) : list coord := list_prod (seq 0 (fst s)) (seq 0 (snd s)).

(** connection through adjacent points of the same contents *)
Definition rcstep (s : nat * nat) (P : pos) (a b : coord) : Prop :=
  ron s a /\ ron s b /\ adj a b /\ P a = P b.
Definition rconnected (s : nat * nat) (P : pos) : coord -> coord -> Prop := rtc (rcstep s P).

(** [l] is a liberty of the chain of [p]; the chain has one *)
Definition rliberty (s : nat * nat) (P : pos) (p l : coord) : Prop :=
  ron s l /\ P l = None /\ exists q, rconnected s P p q /\ adj q l.
Definition rbreathes (s : nat * nat) (P : pos) (p : coord) : Prop := exists l, rliberty s P p l.

(** agreement on the board *)
Definition rsame_pos (s : nat * nat) (P Q : pos) : Prop := forall p, ron s p -> P p = Q p.

(** [Q] is [P] without the points satisfying [D] *)
Definition rcleared (s : nat * nat) (D : coord -> Prop) (P Q : pos) : Prop :=
  forall q, ron s q -> (D q -> Q q = None) /\ (~ D q -> Q q = P q).

(** the stones taken by a stone of [c] just put on [p] *)
Definition rtaken (s : nat * nat) (P : pos) (p : coord) (c : color) (q : coord) : Prop :=
  exists t, ron s t /\ adj p t /\ P t = Some (opp c) /\ rconnected s P t q /\ ~ rbreathes s P t.

(** a move: put the stone, clear what is taken, then, if [suicide] is allowed,
    clear the chain of the stone if it has no liberty left *)
Definition rgo_move (suicide : bool) (s : nat * nat) (P : pos) (p : coord) (c : color) (R : pos) : Prop :=
  exists Q, rcleared s (rtaken s (put P p c) p c) (put P p c) Q /\
            rcleared s (fun q => suicide = true /\ ~ rbreathes s Q p /\ rconnected s Q p q) Q R.

(** the move is a suicide: after the captures its chain has no liberty *)
Definition rsuicidal (s : nat * nat) (P : pos) (p : coord) (c : color) : Prop :=
  exists Q, rcleared s (rtaken s (put P p c) p c) (put P p c) Q /\ ~ rbreathes s Q p.

(** exactly one chain of colour [c] touches [p] *)
Definition rone_friend (s : nat * nat) (P : pos) (p : coord) (c : color) : Prop :=
  exists q, ron s q /\ adj p q /\ P q = Some c /\
    forall q', ron s q' -> adj p q' -> P q' = Some c -> rconnected s P q q'.

(** number of stones of a colour *)
Definition rcount (s : nat * nat) (P : pos) (c : color) : nat :=
  length (filter (fun p => P p = Some c) (rpoints s)).

(** how often [p] occurs in a list *)
Definition times (p : coord) (l : list coord) : nat := length (filter (fun q => q = p) l).

(** the region (or chain) of [p] touches a stone of colour [c] *)
Definition rtouches (s : nat * nat) (P : pos) (p : coord) (c : color) : Prop :=
  exists q r, rconnected s P p q /\ ron s r /\ adj q r /\ P r = Some c.

(** [p] is an empty point whose region touches stones of colour [c] only *)
Definition rowned (s : nat * nat) (P : pos) (c : color) (p : coord) : Prop :=
  ron s p /\ P p = None /\ rtouches s P p c /\ ~ rtouches s P p (opp c).

(** every chain on the board has a liberty *)
Definition rall_breathe (s : nat * nat) (P : pos) : Prop :=
  forall p, ron s p -> P p <> None -> rbreathes s P p.

(** Tromp-Taylor: the stones of the other colour that have no liberty anywhere on
    the board are cleared, then those of the own colour *)
Definition rtaken_anywhere (s : nat * nat) (P : pos) (c : color) (q : coord) : Prop :=
  P q = Some (opp c) /\ ~ rbreathes s P q.
Definition rtromp_taylor_move (s : nat * nat) (P : pos) (p : coord) (c : color) (R : pos) : Prop :=
  exists Q, rcleared s (rtaken_anywhere s (put P p c) c) (put P p c) Q /\
            rcleared s (rtaken_anywhere s Q (opp c)) Q R.
