(** When a move is refused, on a board with [fst s] rows and [snd s] columns;
    [EyeSpec.v] and [VerdictSpec.v] without the restriction to squares. *)
From stdpp Require Import relations.
From Verif Require Export VerdictSpec RectSpec.

(** the corner of [p] in direction [d] is off the board or carries a stone of colour [c] *)
Definition rsafe_corner (s : nat * nat) (P : pos) (c : color) (p : coord) (d : Z * Z) : Prop :=
  forall q, ron s q -> corner p d q -> P q = Some c.

(** exactly [k] of the four corners of [p] are safe *)
Definition rsafe_corners (s : nat * nat) (P : pos) (c : color) (p : coord) (k : nat) : Prop :=
  exists l, NoDup l /\ length l = k /\ forall d, d ∈ l <-> d ∈ directions /\ rsafe_corner s P c p d.

(** the empty corner of [p] in direction [d] *)
Definition rhole (s : nat * nat) (P : pos) (p : coord) (d : Z * Z) (q : coord) : Prop :=
  ron s q /\ corner p d q /\ P q = None.

(** a stone of the other colour stands next to [q] *)
Definition rattacked (s : nat * nat) (P : pos) (c : color) (q : coord) : Prop :=
  exists r, ron s r /\ adj q r /\ P r = Some (opp c).

(** An empty point with stones of colour [c] on all neighbouring points such that
    all corners are safe; or two or three are, and one of the empty corners has
    two or three safe corners itself, neither it nor an empty corner inspected
    before it being attacked. *)
Definition reye_shape (s : nat * nat) (P : pos) (c : color) (p : coord) : Prop :=
  P p = None /\ (forall q, ron s q -> adj p q -> P q = Some c) /\
  (rsafe_corners s P c p 4 \/
   (rsafe_corners s P c p 3 \/ rsafe_corners s P c p 2) /\
   exists i d q, directions !! i = Some d /\ rhole s P p d q /\ ~ rattacked s P c q /\
     (rsafe_corners s P c q 3 \/ rsafe_corners s P c q 2) /\
     forall j d' q', (j < i)%nat -> directions !! j = Some d' -> rhole s P p d' q' -> ~ rattacked s P c q').

(** the stone of [c] on [p] captures something *)
Definition rcaptures (s : nat * nat) (P : pos) (p : coord) (c : color) : Prop :=
  exists q, ron s q /\ rtaken s (put P p c) p c q.

(** Playing on [p] is banned by the ko rule of the library: a single stone has just
    been captured on [p], and no chain of two or more stones next to [p] has [p]
    as its only liberty. *)
Definition rko_banned (s : nat * nat) (t : table) (p : coord) : Prop :=
  t_ko t = Some p /\
  forall q, ron s q -> adj p q -> t_pos t q <> None ->
    (forall l, rliberty s (t_pos t) q l -> l = p) ->
    forall q', rconnected s (t_pos t) q q' -> q' = q.

(** the position after the move was seen before *)
Definition rrepeats_seen (s : nat * nat) (t : table) (p : coord) : Prop :=
  exists R Q, rgo_move false s (t_pos t) p (t_turn t) R /\ Q ∈ t_seen t /\ rsame_pos s R Q.

(** The library looks at earlier positions only if at least three are recorded and
    the stone captures something. *)
Definition rsuperko_banned (s : nat * nat) (t : table) (p : coord) : Prop :=
  (2 < length (t_seen t))%nat /\ rcaptures s (t_pos t) p (t_turn t) /\ (rko_banned s t p \/ rrepeats_seen s t p).

(** the reasons to refuse a stone of the side to move on [p] *)
Definition rpoint_reasons (s : nat * nat) (f : N) (t : table) (p : coord) : list (play_error * Prop) :=
  [ (EPointNotEmpty, t_pos t p <> None);
    (ESuicide, no_suicide f = true /\ rsuicidal s (t_pos t) p (t_turn t));
    (EKo, no_ko f = true /\ rko_banned s t p);
    (EFillEye, no_fill_eye f = true /\ reye_shape s (t_pos t) (t_turn t) p);
    (EKo, no_superko f = true /\ rsuperko_banned s t p) ].
Definition rreasons (s : nat * nat) (f : N) (t : table) (p : coord) : list (play_error * Prop) :=
  (EGamePaused, t_passes t = 2%nat) :: rpoint_reasons s f t p.

(** the first reason that applies decides *)
Definition rjudged (s : nat * nat) (f : N) (t : table) (p : coord) (v : verdict) : Prop :=
  first_reason (rreasons s f t p) v.
