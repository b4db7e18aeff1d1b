(** Model of src/rules/game_builder.rs. *)
From Verif Require Export Game.

(** src/rules/game_builder.rs:28-40 [struct GameBuilder]; the player names are
    never read and are left out *)
Record builder := mkBuilder {
  b_size : size_t;
  b_rule : rule;
  b_komi : option f32;
  b_handicap : option N;
  b_handicap_points : list coord;
  b_turn : option color;
  b_moves : list move;
  b_outcome : option endgame;
  b_setup : list stone
}.

(** src/rules/game_builder.rs:152-168 [Default for GameBuilder] *)
Definition builder_default : builder :=
  mkBuilder (19, 19)%nat CHINESE None None [] None [] None [].

(** src/rules/game_builder.rs:43-97: the setters *)
Definition set_moves (b : builder) (x : list move) : builder :=
  mkBuilder (b_size b) (b_rule b) (b_komi b) (b_handicap b) (b_handicap_points b) (b_turn b) x (b_outcome b) (b_setup b).
(** src/rules/game_builder.rs:48-51 [outcome] *)
Definition set_outcome (b : builder) (x : endgame) : builder :=
  mkBuilder (b_size b) (b_rule b) (b_komi b) (b_handicap b) (b_handicap_points b) (b_turn b) (b_moves b) (Some x) (b_setup b).
(** src/rules/game_builder.rs:54-57 [put_handicap] *)
Definition set_put_handicap (b : builder) (x : list coord) : builder :=
  mkBuilder (b_size b) (b_rule b) (b_komi b) (b_handicap b) x (b_turn b) (b_moves b) (b_outcome b) (b_setup b).
(** src/rules/game_builder.rs:59-62 [handicap] *)
Definition set_handicap (b : builder) (x : N) : builder :=
  mkBuilder (b_size b) (b_rule b) (b_komi b) (Some x) (b_handicap_points b) (b_turn b) (b_moves b) (b_outcome b) (b_setup b).
(** src/rules/game_builder.rs:64-67 [size] *)
Definition set_size (b : builder) (x : size_t) : builder :=
  mkBuilder x (b_rule b) (b_komi b) (b_handicap b) (b_handicap_points b) (b_turn b) (b_moves b) (b_outcome b) (b_setup b).
(** src/rules/game_builder.rs:69-72 [komi] *)
Definition set_bkomi (b : builder) (x : f32) : builder :=
  mkBuilder (b_size b) (b_rule b) (Some x) (b_handicap b) (b_handicap_points b) (b_turn b) (b_moves b) (b_outcome b) (b_setup b).
(** src/rules/game_builder.rs:74-77 [turn] *)
Definition set_turn (b : builder) (x : color) : builder :=
  mkBuilder (b_size b) (b_rule b) (b_komi b) (b_handicap b) (b_handicap_points b) (Some x) (b_moves b) (b_outcome b) (b_setup b).
(** src/rules/game_builder.rs:84-87 [rule] *)
Definition set_rule (b : builder) (x : rule) : builder :=
  mkBuilder (b_size b) x (b_komi b) (b_handicap b) (b_handicap_points b) (b_turn b) (b_moves b) (b_outcome b) (b_setup b).
(** src/rules/game_builder.rs:94-97 [add] *)
Definition add_stone (b : builder) (x : stone) : builder :=
  mkBuilder (b_size b) (b_rule b) (b_komi b) (b_handicap b) (b_handicap_points b) (b_turn b) (b_moves b) (b_outcome b) (b_setup b ++ [x]).

(** src/rules/game_builder.rs:99-143 [build_inner]; it never returns [Err] *)
Definition build_inner (dbg : bool) (b : builder) : res game :=
  let! gb := goban_new (b_size b) in
  let handicap := match b_handicap b with
                  | Some h => h
                  | None => len_as_u32 (b_handicap_points b)
                  end in
  let! gb := foldM (fun gb p => push dbg gb p Black) (b_handicap_points b) gb in
  let! gb := foldM (fun gb s => push_stone dbg gb s) (b_setup b) gb in
  let r := match b_komi b with
           | Some k => mkRule k (flag_illegal (b_rule b)) (flag_score (b_rule b))
           | None => b_rule b
           end in
  let turn := match b_turn b with
              | Some t => t
              | None => if (handicap =? 0)%N then Black else White
              end in
  let g := mkGame gb 0 (0%N, 0%N) (b_outcome b) turn r handicap [] None in
  foldM (fun g m => play dbg g m) (b_moves b) g.

(** src/rules/game_builder.rs:145-149 [build]: [take] leaves the default builder
    behind *)
Definition build (dbg : bool) (b : builder) : builder * res game :=
  (builder_default, build_inner dbg b).
