(** The game as an abstract machine on [table]s: what every call of the API does to
    position, side to move, passes, outcome, prisoners, ko point and history, in
    terms of the rules of [Spec.v] and [VerdictSpec.v] alone. *)
From Verif Require Export VerdictSpec Ops.

(** agreement of two tables as far as the points of the board are concerned *)
Record same_table (n : nat) (t u : table) : Prop := mkSameTable {
  sa_pos : same_pos n (t_pos t) (t_pos u);
  sa_turn : t_turn t = t_turn u;
  sa_passes : t_passes t = t_passes u;
  sa_outcome : t_outcome t = t_outcome u;
  sa_prisoners : t_prisoners t = t_prisoners u;
  sa_ko : t_ko t = t_ko u;
  sa_seen : Forall2 (same_pos n) (t_seen t) (t_seen u)
}.

(** a new game *)
Definition start : table := mkTable (fun _ => None) Black 0 None (0, 0)%N None [].

(** A stone of the side to move on the empty point [p], without asking whether it is
    legal.  Stones that leave the board are added to the prisoners of the other
    side; the ko point is set if exactly one stone was captured; the position
    before the move is recorded unless it is recorded already. *)
Record stone_step (n : nat) (f : N) (t : table) (p : coord) (t' : table) : Prop := mkStoneStep {
  ss_pos : go_move (negb (no_suicide f)) n (t_pos t) p (t_turn t) (t_pos t');
  ss_turn : t_turn t' = opp (t_turn t);
  ss_passes : t_passes t' = 0%nat;
  ss_outcome : t_outcome t' = t_outcome t;
  ss_black : (fst (t_prisoners t') + N.of_nat (count n (t_pos t') White) =
              fst (t_prisoners t) + N.of_nat (count n (put (t_pos t) p (t_turn t)) White))%N;
  ss_white : (snd (t_prisoners t') + N.of_nat (count n (t_pos t') Black) =
              snd (t_prisoners t) + N.of_nat (count n (put (t_pos t) p (t_turn t)) Black))%N;
  ss_ko : forall q, t_ko t' = Some q <-> captures_only n (t_pos t) p (t_turn t) q;
  ss_seen : (exists Q, Q ∈ t_seen t /\ same_pos n (t_pos t) Q) /\ t_seen t' = t_seen t \/
            (~ exists Q, Q ∈ t_seen t /\ same_pos n (t_pos t) Q) /\ t_seen t' = t_seen t ++ [t_pos t]
}.

(** a move carried out without asking whether it is legal *)
Inductive move_step (n : nat) (f : N) (t : table) : move -> table -> Prop :=
| mv_stone x y t' : on n (x, y) -> t_pos t (x, y) = None -> stone_step n f t (x, y) t' ->
    move_step n f t (MPlay x y) t'
| mv_pass : (t_passes t < 2)%nat ->
    move_step n f t MPass
      (mkTable (t_pos t) (opp (t_turn t)) (S (t_passes t)) (t_outcome t) (t_prisoners t) None (t_seen t))
| mv_resign c :
    move_step n f t (MResign c)
      (mkTable (t_pos t) (t_turn t) (t_passes t) (Some (WinnerByResign c)) (t_prisoners t) (t_ko t) (t_seen t)).

(** the verdict on a move *)
Definition ruling (n : nat) (f : N) (t : table) (m : move) (v : verdict) : Prop :=
  match m with
  | MPlay x y => on n (x, y) /\ judged n f t (x, y) v
  | _ => first_reason [(EGamePaused, t_passes t = 2%nat)] v
  end.

(** One call with its answer.  [OPlay] with a stone asks for an empty point of the
    board, [OTry] with a stone for a point of the board, [OHandicap] for different
    empty points of the board. *)
Inductive call_step (n : nat) (f : N) (t : table) : op -> option verdict -> table -> Prop :=
| ca_play m t' : move_step n f t m t' -> call_step n f t (OPlay m) None t'
| ca_accept m t' : ruling n f t m Accepted -> move_step n f t m t' -> call_step n f t (OTry m) (Some Accepted) t'
| ca_refuse m e : ruling n f t m (Refused e) -> call_step n f t (OTry m) (Some (Refused e)) t
| ca_resume :
    call_step n f t OResume None
      (mkTable (t_pos t) (t_turn t) 0 (t_outcome t) (t_prisoners t) (t_ko t) (t_seen t))
| ca_komi k : call_step n f t (OKomi k) None t
| ca_handicap pts Q : NoDup pts -> (forall p, p ∈ pts -> on n p /\ t_pos t p = None) ->
    (forall p, on n p -> Q p = if decide (p ∈ pts) then Some Black else t_pos t p) ->
    call_step n f t (OHandicap pts) None
      (mkTable Q White (t_passes t) (t_outcome t) (t_prisoners t) (t_ko t) (t_seen t)).

(** a sequence of calls with their answers *)
Inductive table_run (n : nat) (f : N) : table -> list op -> list (option verdict) -> table -> Prop :=
| tr_nil t : table_run n f t [] [] t
| tr_cons t o a t1 ops l t2 : call_step n f t o a t1 -> table_run n f t1 ops l t2 ->
    table_run n f t (o :: ops) (a :: l) t2.

(** The calls of the model with their answers; only [try_play] answers. *)
Definition call (dbg : bool) (g : game) (o : op) : res (game * option verdict) :=
  match o with
  | OPlay m => let! g' := play dbg g m in Ok (g', None)
  | OTry m => let! '(g', v) := try_play dbg g m in Ok (g', Some v)
  | OResume => Ok (resume g, None)
  | OKomi k => Ok (set_komi g k, None)
  | OHandicap pts => let! g' := put_handicap dbg g pts in Ok (g', None)
  end.
Fixpoint calls (dbg : bool) (g : game) (ops : list op) : res (game * list (option verdict)) :=
  match ops with
  | [] => Ok (g, [])
  | o :: t =>
      let! '(g1, a) := call dbg g o in
      let! '(g2, l) := calls dbg g1 t in
      Ok (g2, a :: l)
  end.

(** number of stones a call may put on the board *)
Definition stones_of (o : op) : nat :=
  match o with
  | OPlay (MPlay _ _) | OTry (MPlay _ _) => 1
  | OHandicap pts => length pts
  | _ => 0
  end.
Definition all_stones (ops : list op) : nat := list_sum (List.map stones_of ops).

(** a call that the rules guard: a move given to [try_play], a resumption, a new komi *)
Definition guarded (n : nat) (o : op) : Prop :=
  match o with
  | OTry (MPlay x y) => on n (x, y)
  | OTry _ | OResume | OKomi _ => True
  | OPlay _ | OHandicap _ => False
  end.
