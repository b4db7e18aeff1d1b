(** Sequences of calls of the public API, and what happened in them. *)
From stdpp Require Import sorting.
From Verif Require Export Reach.

Inductive op :=
| OPlay (m : move)
| OTry (m : move)
| OResume
| OKomi (k : f32)
| OHandicap (pts : list coord).

(** a move that took place, or a resumption *)
Inductive event := EvStone | EvPass | EvResign (c : color) | EvResume.

Definition event_of (m : move) : event :=
  match m with MPass => EvPass | MResign c => EvResign c | MPlay _ _ => EvStone end.

(** the game after the call and the events of the call *)
Definition do_op (dbg : bool) (g : game) (o : op) : res (game * list event) :=
  match o with
  | OPlay m => let! g' := play dbg g m in Ok (g', [event_of m])
  | OTry m =>
      let! '(g', v) := try_play dbg g m in
      Ok (g', match v with Accepted => [event_of m] | Refused _ => [] end)
  | OResume => Ok (resume g, [EvResume])
  | OKomi k => Ok (set_komi g k, [])
  | OHandicap pts => let! g' := put_handicap dbg g pts in Ok (g', [])
  end.

Fixpoint run (dbg : bool) (g : game) (ops : list op) : res (game * list event) :=
  match ops with
  | [] => Ok (g, [])
  | o :: t =>
      let! '(g1, e1) := do_op dbg g o in
      let! '(g2, e2) := run dbg g1 t in
      Ok (g2, e1 ++ e2)
  end.

(** number of stone moves and passes *)
Definition is_turn (e : event) : bool := match e with EvStone | EvPass => true | _ => false end.
Definition turns (tr : list event) : nat := length (List.filter is_turn tr).

Definition is_resign (e : event) : bool := match e with EvResign _ => true | _ => false end.
Definition is_handicap (o : op) : bool := match o with OHandicap _ => true | _ => false end.

(** [recorded dbg n l g]: a game on the n x n board together with the list of the
    boards that stood before each of its stone moves, in order *)
Inductive recorded (dbg : bool) (n : nat) : list goban -> game -> Prop :=
| rec_new s r g : (1 <= n)%nat -> size_of s = (n, n) -> game_new s r = Ok g -> recorded dbg n [] g
| rec_build bl g : (1 <= n)%nat -> b_size bl = (n, n) -> b_moves bl = [] ->
    NoDup (setup_stones bl).*1 -> (forall s, s ∈ setup_stones bl -> on n (fst s)) ->
    build_inner dbg bl = Ok g -> recorded dbg n [] g
| rec_stone l g x y g' : recorded dbg n l g -> on n (x, y) -> pos_of (gm_goban g) (x, y) = None ->
    play dbg g (MPlay x y) = Ok g' -> recorded dbg n (l ++ [gm_goban g]) g'
| rec_pass l g g' : recorded dbg n l g -> play dbg g MPass = Ok g' -> recorded dbg n l g'
| rec_resign l g c g' : recorded dbg n l g -> play dbg g (MResign c) = Ok g' -> recorded dbg n l g'
| rec_resume l g : recorded dbg n l g -> recorded dbg n l (resume g)
| rec_komi l g k : recorded dbg n l g -> recorded dbg n l (set_komi g k)
| rec_handicap l g pts g' : recorded dbg n l g -> NoDup pts ->
    (forall p, p ∈ pts -> on n p /\ pos_of (gm_goban g) p = None) ->
    put_handicap dbg g pts = Ok g' -> recorded dbg n l g'.

(** [h] is [l] without the boards that show the same position as an earlier one *)
Definition first_occurrences (n : nat) (l h : list goban) : Prop :=
  exists is : list nat,
    StronglySorted lt is /\ List.map (fun i => l !! i) is = List.map Some h /\
    forall i b, l !! i = Some b ->
      (i ∈ is <-> forall j a, (j < i)%nat -> l !! j = Some a -> ~ same_pos n (pos_of a) (pos_of b)).

(** passes at the start of a trace, resignations aside *)
Fixpoint leading_passes (tr : list event) : nat :=
  match tr with
  | EvPass :: t => S (leading_passes t)
  | EvResign _ :: t => leading_passes t
  | _ => 0
  end.
