(** Coordinates beyond the right edge: they have the index of a point of a later row. *)
From Verif Require Export VerdictSpec.

(** [z] is no point of the board, but has the index of the point [p] *)
Definition alias (n : nat) (z p : coord) : Prop :=
  ~ on n z /\ on n p /\ fst z * n + snd z = fst p * n + snd p.

(** No chain next to [p] saves a stone of colour [c] put there: the chains of that
    colour have no other liberty, those of the other colour have one. *)
Definition crowded (n : nat) (P : pos) (p : coord) (c : color) : Prop :=
  forall q, on n q -> adj p q ->
    (P q = Some c -> forall l, liberty n P q l -> l = p) /\
    (P q = Some (opp c) -> ~ forall l, liberty n P q l -> l = p).

(** The reasons to refuse a stone of the side to move on the coordinate [z] with the
    index of [p]: some of the checks look around [p], others around [z]. *)
Definition alias_reasons (n : nat) (f : N) (t : table) (z p : coord) : list (play_error * Prop) :=
  [ (EGamePaused, t_passes t = 2);
    (EPointNotEmpty, t_pos t p <> None);
    (ESuicide, no_suicide f = true /\ (forall q, on n q -> adj z q -> t_pos t q <> None) /\
               crowded n (t_pos t) p (t_turn t));
    (EFillEye, no_fill_eye f = true /\ eye_shape n (t_pos t) (t_turn t) z);
    (EKo, no_superko f = true /\ 2 < length (t_seen t) /\ captures n (t_pos t) p (t_turn t) /\ repeats_seen n t p) ].
