(** The games on a board of [fst s] rows and [snd s] columns that the public API
    can produce; [Reach.v] for boards of any size. *)
From Verif Require Export Reach RectSpec.

(** [rgreach dbg s b w g]: a game on a board of size [s] that the public API can
    produce, [b] black and [w] white stones having been put on it; like
    [greach] *)
Inductive rgreach (dbg : bool) (s : size_t) : nat -> nat -> game -> Prop :=
| rg_new sz r g : (1 <= fst s)%nat -> (1 <= snd s)%nat -> size_of sz = s -> game_new sz r = Ok g -> rgreach dbg s 0 0 g
| rg_build bl g : (1 <= fst s)%nat -> (1 <= snd s)%nat -> b_size bl = s -> b_moves bl = [] ->
    NoDup (setup_stones bl).*1 -> (forall x, x ∈ setup_stones bl -> ron s (fst x)) ->
    build_inner dbg bl = Ok g ->
    rgreach dbg s (of_color Black (setup_stones bl))
                 (of_color White (setup_stones bl)) g
| rg_play b w g x y g' : rgreach dbg s b w g -> ron s (x, y) -> pos_of (gm_goban g) (x, y) = None ->
    play dbg g (MPlay x y) = Ok g' ->
    rgreach dbg s (fst (bump_count (gm_turn g) (b, w))) (snd (bump_count (gm_turn g) (b, w))) g'
| rg_pass b w g g' : rgreach dbg s b w g -> play dbg g MPass = Ok g' -> rgreach dbg s b w g'
| rg_resign b w g c g' : rgreach dbg s b w g -> play dbg g (MResign c) = Ok g' -> rgreach dbg s b w g'
| rg_resume b w g : rgreach dbg s b w g -> rgreach dbg s b w (resume g)
| rg_komi b w g k : rgreach dbg s b w g -> rgreach dbg s b w (set_komi g k)
| rg_handicap b w g pts g' : rgreach dbg s b w g -> NoDup pts ->
    (forall p, p ∈ pts -> ron s p /\ pos_of (gm_goban g) p = None) ->
    put_handicap dbg g pts = Ok g' -> rgreach dbg s (b + length pts) w g'.

(** [rlreach dbg s g]: a game on a board of size [s] that started from an empty
    board or a set-up in which every chain breathes, and was continued with moves
    accepted by [try_play]; like [lreach] *)
Inductive rlreach (dbg : bool) (s : size_t) : game -> Prop :=
| rl_new sz r g : (1 <= fst s)%nat -> (1 <= snd s)%nat -> size_of sz = s -> game_new sz r = Ok g -> rlreach dbg s g
| rl_build bl g : (1 <= fst s)%nat -> (1 <= snd s)%nat -> b_size bl = s -> b_moves bl = [] ->
    NoDup (setup_stones bl).*1 -> (forall x, x ∈ setup_stones bl -> ron s (fst x)) ->
    build_inner dbg bl = Ok g -> rall_breathe s (pos_of (gm_goban g)) -> rlreach dbg s g
| rl_handicap g pts g' : rlreach dbg s g -> gm_history g = [] -> NoDup pts ->
    (forall p, p ∈ pts -> ron s p /\ pos_of (gm_goban g) p = None) ->
    put_handicap dbg g pts = Ok g' -> rall_breathe s (pos_of (gm_goban g')) -> rlreach dbg s g'
| rl_play g x y g' : rlreach dbg s g -> ron s (x, y) ->
    try_play dbg g (MPlay x y) = Ok (g', Accepted) -> rlreach dbg s g'
| rl_pass g g' : rlreach dbg s g -> try_play dbg g MPass = Ok (g', Accepted) -> rlreach dbg s g'
| rl_resign g c g' : rlreach dbg s g -> try_play dbg g (MResign c) = Ok (g', Accepted) -> rlreach dbg s g'
| rl_resume g : rlreach dbg s g -> rlreach dbg s (resume g)
| rl_komi g k : rlreach dbg s g -> rlreach dbg s (set_komi g k).

(** Playing on a board of size [s] is playing Go: a stone put on an empty point,
    the library being able to number the groups, changes the position as the
    rules say. *)
Definition plays_go (dbg : bool) (s : nat * nat) : Prop :=
  forall b w g x y, rgreach dbg s b w g -> (N.of_nat (b + w) < 65535)%N -> ron s (x, y) -> pos_of (gm_goban g) (x, y) = None ->
  exists g', play dbg g (MPlay x y) = Ok g' /\
    rgo_move (negb (N.testbit (flag_illegal (gm_rule g)) 2)) s (pos_of (gm_goban g)) (x, y) (gm_turn g) (pos_of (gm_goban g')).

(** Territories on a board of size [s] are what the rules say, in every game and
    for every iteration order of the hash sets. *)
Definition counts_territory (dbg : bool) (s : nat * nat) : Prop :=
  forall b w g order, rgreach dbg s b w g -> (forall l, order l ≡ₚ l) ->
  exists bt wt, get_territories order dbg (gm_goban g) = Ok (bt, wt) /\ NoDup bt /\ NoDup wt /\
    (forall x, x ∈ bt <-> snd x = None /\ rowned s (pos_of (gm_goban g)) Black (fst x)) /\
    (forall x, x ∈ wt <-> snd x = None /\ rowned s (pos_of (gm_goban g)) White (fst x)).
