(** What an observer of the public API sees: the position shown by a board, and
    the games and boards that can be reached. *)
From Verif Require Export Spec Builder.

(** the position shown by [get_color] *)
Definition pos_of (g : goban) : pos :=
  fun p => match get_color g p with Ok c => c | _ => None end.

(** one more stone of colour [c] *)
Definition bump_count (c : color) (bw : nat * nat) : nat * nat :=
  match c with Black => (S (fst bw), snd bw) | White => (fst bw, S (snd bw)) end.

(** number of stones of colour [x] in a list *)
Definition of_color (x : color) (l : list stone) : nat :=
  length (List.filter (fun s => color_eqb (snd s) x) l).

(** stones put by a builder, in order *)
Definition setup_stones (bl : builder) : list stone :=
  List.map (fun p => (p, Black)) (b_handicap_points bl) ++ b_setup bl.

(** [greach dbg n b w g]: [g] is a game on an n x n board that the public API can
    produce, [b] black and [w] white stones having been put on the board since
    the start.  Stones are put on empty points of the board only; apart from
    that anything goes: unchecked moves, any rule, set-up stones, handicap at
    any moment, resignations, passes, resumptions, changes of komi. *)
Inductive greach (dbg : bool) (n : nat) : nat -> nat -> game -> Prop :=
| gr_new s r g : (1 <= n)%nat -> size_of s = (n, n) -> game_new s r = Ok g -> greach dbg n 0 0 g
| gr_build bl g : (1 <= n)%nat -> b_size bl = (n, n) -> b_moves bl = [] ->
    NoDup (setup_stones bl).*1 -> (forall s, s ∈ setup_stones bl -> on n (fst s)) ->
    build_inner dbg bl = Ok g ->
    greach dbg n (of_color Black (setup_stones bl))
                 (of_color White (setup_stones bl)) g
| gr_play b w g x y g' : greach dbg n b w g -> on n (x, y) -> pos_of (gm_goban g) (x, y) = None ->
    play dbg g (MPlay x y) = Ok g' ->
    greach dbg n (fst (bump_count (gm_turn g) (b, w))) (snd (bump_count (gm_turn g) (b, w))) g'
| gr_pass b w g g' : greach dbg n b w g -> play dbg g MPass = Ok g' -> greach dbg n b w g'
| gr_resign b w g c g' : greach dbg n b w g -> play dbg g (MResign c) = Ok g' -> greach dbg n b w g'
| gr_resume b w g : greach dbg n b w g -> greach dbg n b w (resume g)
| gr_komi b w g k : greach dbg n b w g -> greach dbg n b w (set_komi g k)
| gr_handicap b w g pts g' : greach dbg n b w g -> NoDup pts ->
    (forall p, p ∈ pts -> on n p /\ pos_of (gm_goban g) p = None) ->
    put_handicap dbg g pts = Ok g' -> greach dbg n (b + length pts) w g'.

(** [breach dbg n m g]: [g] is an n x n board that the public API can produce, at
    most [m] stones having been put on it, each on an empty point. *)
Inductive breach (dbg : bool) (n : nat) : nat -> goban -> Prop :=
| br_new g : (1 <= n)%nat -> goban_new (n, n) = Ok g -> breach dbg n 0 g
| br_push m g p c g' : breach dbg n m g -> on n p -> pos_of g p = None -> push dbg g p c = Ok g' ->
    breach dbg n (S m) g'
| br_remove m g k grp g' : breach dbg n m g -> chains g !! k = Some (Some grp) -> remove_chain dbg g k = Ok g' -> breach dbg n m g'
| br_game b w g : greach dbg n b w g -> breach dbg n (b + w) (gm_goban g)
| br_history b w g x : greach dbg n b w g -> x ∈ gm_history g -> breach dbg n (b + w) x
| br_verification b w g p x : greach dbg n b w g -> on n p -> pos_of (gm_goban g) p = None ->
    play_for_verification dbg g p = Ok x -> breach dbg n (S (b + w)) x.

(** [lreach dbg n g]: a game on the n x n board that started from an empty board or
    a set-up in which every chain breathes, and was continued with moves accepted
    by [try_play].  Handicap stones may be put before the first stone move. *)
Inductive lreach (dbg : bool) (n : nat) : game -> Prop :=
| lr_new s r g : (1 <= n)%nat -> size_of s = (n, n) -> game_new s r = Ok g -> lreach dbg n g
| lr_build bl g : (1 <= n)%nat -> b_size bl = (n, n) -> b_moves bl = [] ->
    NoDup (setup_stones bl).*1 -> (forall s, s ∈ setup_stones bl -> on n (fst s)) ->
    build_inner dbg bl = Ok g -> all_breathe n (pos_of (gm_goban g)) -> lreach dbg n g
| lr_handicap g pts g' : lreach dbg n g -> gm_history g = [] -> NoDup pts ->
    (forall p, p ∈ pts -> on n p /\ pos_of (gm_goban g) p = None) ->
    put_handicap dbg g pts = Ok g' -> all_breathe n (pos_of (gm_goban g')) -> lreach dbg n g'
| lr_play g x y g' : lreach dbg n g -> on n (x, y) ->
    try_play dbg g (MPlay x y) = Ok (g', Accepted) -> lreach dbg n g'
| lr_pass g g' : lreach dbg n g -> try_play dbg g MPass = Ok (g', Accepted) -> lreach dbg n g'
| lr_resign g c g' : lreach dbg n g -> try_play dbg g (MResign c) = Ok (g', Accepted) -> lreach dbg n g'
| lr_resume g : lreach dbg n g -> lreach dbg n (resume g)
| lr_komi g k : lreach dbg n g -> lreach dbg n (set_komi g k).
