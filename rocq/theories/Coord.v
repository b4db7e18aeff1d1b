(** Model of src/pieces/util.rs (coordinates) and of the colours of
    src/pieces/stones.rs. *)
From Verif Require Export Base.

(** src/pieces/stones.rs:8-13 [enum Color] *)
Inductive color := White | Black.

(** src/pieces/stones.rs:19-28 [Not for Color] *)
Definition opp (c : color) : color :=
  match c with Black => White | White => Black end.

(** derived [PartialEq] of [Color] (src/pieces/stones.rs:8) *)
Definition color_eqb (a b : color) : bool :=
  match a, b with
  | White, White | Black, Black => true
  | _, _ => false
  end.

(** derived [PartialEq] of [MaybeColor = Option<Color>] (src/pieces/stones.rs:15) *)
Definition mcolor_eqb (a b : option color) : bool :=
  match a, b with
  | None, None => true
  | Some x, Some y => color_eqb x y
  | _, _ => false
  end.

(** src/pieces/util.rs:7-8 [Coord = (u8, u8)], [Size = (u8, u8)]: (row, column)
    and (height, width).  u8 values are naturals; every value of the Rust type
    is below 256 and the theorems about coordinates assume no more than that
    they are on the board. *)
Definition coord := (nat * nat)%type.
(** src/pieces/util.rs:8 [Size] *)
Definition size_t := (nat * nat)%type.

(** [==] on [Coord], as in src/rules/game.rs:402 and src/pieces/stones.rs:49 *)
Definition coord_eqb (a b : coord) : bool :=
  (fst a =? fst b)%nat && (snd a =? snd b)%nat.

(** src/pieces/util.rs:12-14 *)
Definition is_coord_valid (s : size_t) (p : coord) : bool :=
  (fst p <? fst s)%nat && (snd p <? snd s)%nat.

(** src/pieces/util.rs:17-19: [point.0 * size.0 + point.1] in u32, where
    [size.0] is the height.  u8 operands cannot overflow u32. *)
Definition two_to_1dim (s : size_t) (p : coord) : nat :=
  (fst p * fst s + snd p)%nat.

(** src/pieces/util.rs:22-27 (and the identical macro [one2dim!], lines 29-37):
    [(index / size.0) as u8, (index % size.1) as u8]; division by zero panics. *)
Definition one_to_2dim (s : size_t) (i : nat) : res coord :=
  if (fst s =? 0)%nat || (snd s =? 0)%nat then Panic
  else Ok (as_u8 (i / fst s), as_u8 (i mod snd s)).

(** src/pieces/util.rs:40-47 *)
Definition neighbor_coords (dbg : bool) (p : coord) : res (list coord) :=
  let (x1, x2) := p in
  let! x1p := u8_add dbg x1 1 in
  let! x2p := u8_add dbg x2 1 in
  Ok [ (x1p, x2); (u8_wrapping_pred x1, x2);
       (x1, x2p); (x1, u8_wrapping_pred x2) ].

(** src/pieces/util.rs:50-54 *)
Definition valid_coords (dbg : bool) (p : coord) (s : size_t) : res (list coord) :=
  let! l := neighbor_coords dbg p in
  Ok (List.filter (is_coord_valid s) l).

(** src/pieces/util.rs:57-64 *)
Definition corner_points (dbg : bool) (p : coord) : res (list coord) :=
  let (x1, x2) := p in
  let! x1p := u8_add dbg x1 1 in
  let! x2p := u8_add dbg x2 1 in
  Ok [ (x1p, x2p); (u8_wrapping_pred x1, u8_wrapping_pred x2);
       (x1p, u8_wrapping_pred x2); (u8_wrapping_pred x1, x2p) ].
