(** Model of the remaining small functions: conversions between points, stones,
    coordinates and indices, accessors and defaults. *)
From Verif Require Export GroupMore Sgf.
From Coq Require Import String.

(** src/pieces/stones.rs:30-37 [From<MaybeColor> for Color] *)
Definition color_of_maybe (x : option color) : res color :=
  match x with
  | Some c => Ok c
  | None => Panic
  end.

(** src/pieces/stones.rs:39-46 [Display for Color] *)
Definition color_name (c : color) : String.string :=
  match c with
  | White => "White"%string
  | Black => "Black"%string
  end.

(** src/pieces/stones.rs:57-70 [TryFrom<Point> for Stone] *)
Definition stone_of_point (p : point) : stone + String.string :=
  match snd p with
  | Some c => inl (fst p, c)
  | None => inr "We cannot transform an empty point to a stone"%string
  end.

(** src/pieces/stones.rs:72-76, 78-82: a stone or a point is the pair of its parts *)
Definition stone_of_pair (x : coord * color) : stone := x.
(** src/pieces/stones.rs:78-82 *)
Definition point_of_pair (x : coord * option color) : point := x.

(** src/pieces/stones.rs:84-88 [From<Point<T>> for Coord] *)
Definition coord_of_point {T} (p : coord * T) : coord := fst p.

(** src/pieces/util.rs:66-80 [IntoCoord], for a coordinate and for an index *)
Definition into_coord_coord (s : size_t) (p : coord) : res coord := Ok p.
(** src/pieces/util.rs:76-80 *)
Definition into_coord_idx (s : size_t) (i : nat) : res coord := one_to_2dim s i.

(** src/pieces/util.rs:82-96 [IntoIdx], for a coordinate and for an index *)
Definition into_idx_coord (s : size_t) (p : coord) : nat := two_to_1dim s p.
(** src/pieces/util.rs:92-96 *)
Definition into_idx_idx (s : size_t) (i : nat) : nat := i.

(** src/pieces/goban.rs:315-319 [get_connected_stones] for an index *)
Definition get_connected_stones_idx (dbg : bool) (g : goban) (i : nat) : res (list stone) :=
  let! p := into_coord_idx (gsize g) i in get_connected_stones dbg g p.

(** src/pieces/goban.rs:331-342 [get_connected_groups_idx] and 86-94 [chain_stones]
    for a coordinate *)
Definition get_connected_groups_at (dbg : bool) (g : goban) (p : coord) : res (list nat) :=
  get_connected_groups_idx dbg g (into_idx_coord (gsize g) p).
(** src/pieces/goban.rs:86-94 [chain_stones] for a coordinate *)
Definition chain_stones_at (dbg : bool) (g : goban) (p : coord) : res (list stone) :=
  chain_stones dbg g (into_idx_coord (gsize g) p).

(** src/pieces/goban.rs:619-623 [Default for Goban] *)
Definition goban_default : res goban := goban_new (19, 19)%nat.

(** src/pieces/goban.rs:613-617 [Display for Goban] *)
Definition goban_display (g : goban) : res (list glyph) := pretty_string g.

(** src/rules/mod.rs:53-57 [From<Coord> for Move] *)
Definition move_of_coord (p : coord) : move := MPlay (fst p) (snd p).

(** src/rules/game_builder.rs:170-174 [Game::builder] *)
Definition game_builder : builder := builder_default.

(** src/rules/dead_stones.rs:35-49: [player_turn], [hash], [is_final], [do_move] of
    the game interface of the tree search *)
Definition player_turn (g : game) : color := gm_turn g.
(** src/rules/dead_stones.rs:39-41 [hash] *)
Definition game_trait_hash (g : game) : N := 0%N.
(** src/rules/dead_stones.rs:43-45 [is_final] *)
Definition is_final (g : game) : bool := is_over g.
(** src/rules/dead_stones.rs:47-49 [do_move] *)
Definition do_move (dbg : bool) (g : game) (m : move) : res game := play dbg g m.
