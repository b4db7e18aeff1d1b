(** The game as an abstract machine, [TableSpec.v] on boards with [fst s] rows and
    [snd s] columns. *)
From Verif Require Export TableSpec RectVerdictSpec.

(** agreement of two tables as far as the points of the board are concerned *)
Record rsame_table (s : nat * nat) (t u : table) : Prop := rmkSameTable {
  rsa_pos : rsame_pos s (t_pos t) (t_pos u);
  rsa_turn : t_turn t = t_turn u;
  rsa_passes : t_passes t = t_passes u;
  rsa_outcome : t_outcome t = t_outcome u;
  rsa_prisoners : t_prisoners t = t_prisoners u;
  rsa_ko : t_ko t = t_ko u;
  rsa_seen : Forall2 (rsame_pos s) (t_seen t) (t_seen u)
}.

(** the stone of [c] on [p] captures the stone on [q] and nothing else *)
Definition rcaptures_only (s : nat * nat) (P : pos) (p : coord) (c : color) (q : coord) : Prop :=
  ron s q /\ rtaken s (put P p c) p c q /\ forall q', ron s q' -> rtaken s (put P p c) p c q' -> q' = q.

(** A stone of the side to move on the empty point [p], without asking whether it is
    legal.  Stones that leave the board are added to the prisoners of the other
    side; the ko point is set if exactly one stone was captured; the position
    before the move is recorded unless it is recorded already. *)
Record rstone_step (s : nat * nat) (f : N) (t : table) (p : coord) (t' : table) : Prop := rmkStoneStep {
  rss_pos : rgo_move (negb (no_suicide f)) s (t_pos t) p (t_turn t) (t_pos t');
  rss_turn : t_turn t' = opp (t_turn t);
  rss_passes : t_passes t' = 0%nat;
  rss_outcome : t_outcome t' = t_outcome t;
  rss_black : (fst (t_prisoners t') + N.of_nat (rcount s (t_pos t') White) =
              fst (t_prisoners t) + N.of_nat (rcount s (put (t_pos t) p (t_turn t)) White))%N;
  rss_white : (snd (t_prisoners t') + N.of_nat (rcount s (t_pos t') Black) =
              snd (t_prisoners t) + N.of_nat (rcount s (put (t_pos t) p (t_turn t)) Black))%N;
  rss_ko : forall q, t_ko t' = Some q <-> rcaptures_only s (t_pos t) p (t_turn t) q;
  rss_seen : (exists Q, Q ∈ t_seen t /\ rsame_pos s (t_pos t) Q) /\ t_seen t' = t_seen t \/
            (~ exists Q, Q ∈ t_seen t /\ rsame_pos s (t_pos t) Q) /\ t_seen t' = t_seen t ++ [t_pos t]
}.

(** a move carried out without asking whether it is legal *)
Inductive rmove_step (s : nat * nat) (f : N) (t : table) : move -> table -> Prop :=
| rmv_stone x y t' : ron s (x, y) -> t_pos t (x, y) = None -> rstone_step s f t (x, y) t' ->
    rmove_step s f t (MPlay x y) t'
| rmv_pass : (t_passes t < 2)%nat ->
    rmove_step s f t MPass
      (mkTable (t_pos t) (opp (t_turn t)) (S (t_passes t)) (t_outcome t) (t_prisoners t) None (t_seen t))
| rmv_resign c :
    rmove_step s f t (MResign c)
      (mkTable (t_pos t) (t_turn t) (t_passes t) (Some (WinnerByResign c)) (t_prisoners t) (t_ko t) (t_seen t)).

(** the verdict on a move *)
Definition rruling (s : nat * nat) (f : N) (t : table) (m : move) (v : verdict) : Prop :=
  match m with
  | MPlay x y => ron s (x, y) /\ rjudged s f t (x, y) v
  | _ => first_reason [(EGamePaused, t_passes t = 2%nat)] v
  end.

(** One call with its answer.  [OPlay] with a stone asks for an empty point of the
    board, [OTry] with a stone for a point of the board, [OHandicap] for different
    empty points of the board. *)
Inductive rcall_step (s : nat * nat) (f : N) (t : table) : op -> option verdict -> table -> Prop :=
| rca_play m t' : rmove_step s f t m t' -> rcall_step s f t (OPlay m) None t'
| rca_accept m t' : rruling s f t m Accepted -> rmove_step s f t m t' -> rcall_step s f t (OTry m) (Some Accepted) t'
| rca_refuse m e : rruling s f t m (Refused e) -> rcall_step s f t (OTry m) (Some (Refused e)) t
| rca_resume :
    rcall_step s f t OResume None
      (mkTable (t_pos t) (t_turn t) 0 (t_outcome t) (t_prisoners t) (t_ko t) (t_seen t))
| rca_komi k : rcall_step s f t (OKomi k) None t
| rca_handicap pts Q : NoDup pts -> (forall p, p ∈ pts -> ron s p /\ t_pos t p = None) ->
    (forall p, ron s p -> Q p = if decide (p ∈ pts) then Some Black else t_pos t p) ->
    rcall_step s f t (OHandicap pts) None
      (mkTable Q White (t_passes t) (t_outcome t) (t_prisoners t) (t_ko t) (t_seen t)).

(** a sequence of calls with their answers *)
Inductive rtable_run (s : nat * nat) (f : N) : table -> list op -> list (option verdict) -> table -> Prop :=
| rtr_nil t : rtable_run s f t [] [] t
| rtr_cons t o a t1 ops l t2 : rcall_step s f t o a t1 -> rtable_run s f t1 ops l t2 ->
    rtable_run s f t (o :: ops) (a :: l) t2.

(** a call that the rules guard: a move given to [try_play], a resumption, a new komi *)
Definition rguarded (s : nat * nat) (o : op) : Prop :=
  match o with
  | OTry (MPlay x y) => ron s (x, y)
  | OTry _ | OResume | OKomi _ => True
  | OPlay _ | OHandicap _ => False
  end.
