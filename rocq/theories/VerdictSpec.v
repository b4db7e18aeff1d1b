(** The state of a game as the rules see it, and why a stone is refused: the
    reasons in the order in which the library looks for them. *)
From Verif Require Export Observe.

(** position, side to move, consecutive passes, recorded outcome, prisoners taken by
    Black and by White, ko point, and the positions that stood before a stone move *)
Record table := mkTable {
  t_pos : pos;
  t_turn : color;
  t_passes : nat;
  t_outcome : option endgame;
  t_prisoners : N * N;
  t_ko : option coord;
  t_seen : list pos
}.

(** what a game shows *)
Definition table_of (g : game) : table :=
  mkTable (position g) (gm_turn g) (gm_passes g) (gm_outcome g) (gm_prisoners g) (gm_ko_point g)
          (List.map pos_of (gm_history g)).

(** what a mask of illegal moves forbids (src/rules/mod.rs:92-104) *)
Definition no_ko (f : N) : bool := N.testbit f 0.
Definition no_superko (f : N) : bool := N.testbit f 1.
Definition no_suicide (f : N) : bool := N.testbit f 2.
Definition no_fill_eye (f : N) : bool := N.testbit f 3.

(** Playing on [p] is banned by the ko rule of the library: a single stone has just
    been captured on [p], and no chain of two or more stones next to [p] has [p]
    as its only liberty. *)
Definition ko_banned (n : nat) (t : table) (p : coord) : Prop :=
  t_ko t = Some p /\
  forall q, on n q -> adj p q -> t_pos t q <> None ->
    (forall l, liberty n (t_pos t) q l -> l = p) ->
    forall q', connected n (t_pos t) q q' -> q' = q.

(** the position after the move was seen before *)
Definition repeats_seen (n : nat) (t : table) (p : coord) : Prop :=
  exists R Q, go_move false n (t_pos t) p (t_turn t) R /\ Q ∈ t_seen t /\ same_pos n R Q.

(** The library looks at earlier positions only if at least three are recorded and
    the stone captures something. *)
Definition superko_banned (n : nat) (t : table) (p : coord) : Prop :=
  (2 < length (t_seen t))%nat /\ captures n (t_pos t) p (t_turn t) /\ (ko_banned n t p \/ repeats_seen n t p).

(** the reasons to refuse a stone of the side to move on [p] *)
Definition point_reasons (n : nat) (f : N) (t : table) (p : coord) : list (play_error * Prop) :=
  [ (EPointNotEmpty, t_pos t p <> None);
    (ESuicide, no_suicide f = true /\ suicidal n (t_pos t) p (t_turn t));
    (EKo, no_ko f = true /\ ko_banned n t p);
    (EFillEye, no_fill_eye f = true /\ eye_shape n (t_pos t) (t_turn t) p);
    (EKo, no_superko f = true /\ superko_banned n t p) ].
Definition reasons (n : nat) (f : N) (t : table) (p : coord) : list (play_error * Prop) :=
  (EGamePaused, t_passes t = 2%nat) :: point_reasons n f t p.

(** the first reason that applies decides *)
Definition first_reason (l : list (play_error * Prop)) (v : verdict) : Prop :=
  match v with
  | Accepted => Forall (fun r => ~ snd r) l
  | Refused e => exists before R after, l = before ++ (e, R) :: after /\ R /\ Forall (fun r => ~ snd r) before
  end.
Definition judged (n : nat) (f : N) (t : table) (p : coord) (v : verdict) : Prop :=
  first_reason (reasons n f t p) v.

(** answers of the point checks *)
Definition error_of (v : verdict) : option play_error :=
  match v with Accepted => None | Refused e => Some e end.
