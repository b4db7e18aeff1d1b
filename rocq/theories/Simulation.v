(** Model of the simulations that [dead_stones_wth_simulations] asks for:
    src/rules/dead_stones.rs:15-132 as the tree search (crate oxymcts) uses it.  The
    crate is not in the repository.  What is assumed of it is what its interface
    asks for: a simulation goes down from the searched game by moves that
    [legals_moves] offers, plays the game it comes to out at random, and evaluates the
    final game for one of the colours; [best_move] answers with a move offered in
    the searched game, or panics.  Which moves, shuffles and colours these are is an
    argument. *)
From Verif Require Export DeadStones Glue GroupMore.

(** The choices of one tree search: the way down of each simulation (numbers of moves
    in the lists offered), its shuffles and the colour it is evaluated for, and the
    number of the best move, given the rewards.  This stands for the parts of crate
    oxymcts named in src/rules/dead_stones.rs:8-11 and 123-132. *)
Record choices := mkChoices {
  ch_way : nat -> list nat;
  ch_shuffles : nat -> nat -> list coord -> list coord;
  ch_color : nat -> color;
  ch_best : list nat -> list move -> nat
}.

(** the way down a simulation takes, by [legals_moves] and [do_move],
    src/rules/dead_stones.rs:19-33 and 47-49; a number that is too large ends it *)
Fixpoint descend (dbg : bool) (way : list nat) (g : game) : res game :=
  match way with
  | [] => Ok g
  | j :: t =>
      let! ms := legals_moves dbg g in
      match ms !! j with
      | None => Ok g
      | Some m => let! g' := do_move dbg g m in descend dbg t g'
      end
  end.

(** one [execute] of src/rules/dead_stones.rs:174: way down, [playout] (lines 93-119),
    [evaluate_leaf] (lines 79-86).  [order] is the order of hash tables in the
    count of territory, as in [outcome] *)
Definition simulation (order : list point -> list point) (fuel : nat) (dbg : bool) (ch : choices) (g : game) (j : nat)
  : res nat :=
  let! leaf := descend dbg (ch_way ch j) g in
  let! final := playout fuel 0 (ch_shuffles ch j) dbg leaf in
  evaluate_leaf order dbg final (ch_color ch j).

(** src/rules/dead_stones.rs:171-177: the simulations and [best_move] *)
Definition tree_search (order : list point -> list point) (fuel nb : nat) (dbg : bool) (ch : choices) (g : game) (ms : list move)
  : res move :=
  let! rewards := mapM (simulation order fuel dbg ch g) (seq 0 nb) in
  unwrap (ms !! ch_best ch rewards ms).

(** src/rules/dead_stones.rs:167-200 [dead_stones_wth_simulations] with the simulations;
    [chs i] are the choices of the i-th search *)
Definition dead_stones_wth_simulations (order : list point -> list point) (fuel nb : nat) (chs : nat -> choices) (dbg : bool) (g : game)
  : res (list nat) :=
  dead_stones fuel (fun i h ms => tree_search order fuel nb dbg (chs i) h ms) dbg g.
