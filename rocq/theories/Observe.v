(** More of what the public API shows of a board: its groups, the keys of the hash. *)
From stdpp Require Import sorting.
From Verif Require Export Reach EyeSpec.

(** row-major order of coordinates *)
Definition row_major (p q : coord) : Prop := (fst p < fst q \/ fst p = fst q /\ snd p < snd q)%nat.

(** the position of a point in row-major order: the [BoardIdx] of the API *)
Definition index (n : nat) (p : coord) : nat := (fst p * n + snd p)%nat.

(** the number ([GroupIdx]) of the group standing on [p], and that group *)
Definition group_no (g : goban) (p : coord) : option nat :=
  match board g !! two_to_1dim (gsize g) p with Some o => o | None => None end.
Definition group_of (g : goban) (p : coord) : option group :=
  match group_no g p with
  | Some k => match chains g !! k with Some o => o | None => None end
  | None => None
  end.

(** [card D k]: exactly [k] points satisfy [D] *)
Definition card (D : coord -> Prop) (k : nat) : Prop :=
  exists l : list coord, NoDup l /\ (forall p, p ∈ l <-> D p) /\ length l = k.

(** the table entry of a stone: black stones first, then white stones, 361 each *)
Definition stone_key (n : nat) (p : coord) (c : option color) : N :=
  match c with
  | None => 0%N
  | Some Black => default 0%N (ZOBRIST !! index n p)
  | Some White => default 0%N (ZOBRIST !! (361 + index n p)%nat)
  end.

(** exclusive or of the keys of all stones *)
Definition position_key (n : nat) (P : pos) : N :=
  foldr (fun p acc => N.lxor (stone_key n p (P p)) acc) 0%N (points n).

(** Two boards show the same groups, up to the numbering of groups. *)
Definition same_groups (n : nat) (a b : goban) : Prop :=
  (forall p q, on n p -> on n q ->
     (group_no a p = group_no a q <-> group_no b p = group_no b q)) /\
  (forall p, on n p ->
     match group_of a p, group_of b p with
     | Some ga, Some gb =>
         g_color ga = g_color gb /\ g_num_stones ga = g_num_stones gb /\
         group_liberties ga = group_liberties gb
     | None, None => True
     | _, _ => False
     end).

(** What a rule forbids: bits 0 to 3 of its mask (src/rules/mod.rs:92-104) *)
Definition forbids_ko (r : rule) : bool := N.testbit (flag_illegal r) 0.
Definition forbids_superko (r : rule) : bool := N.testbit (flag_illegal r) 1.
Definition forbids_suicide (r : rule) : bool := N.testbit (flag_illegal r) 2.
Definition forbids_fill_eye (r : rule) : bool := N.testbit (flag_illegal r) 3.

(** positions and mover of a game *)
Definition position (g : game) : pos := pos_of (gm_goban g).

(** some stone is captured when the side to move plays on [p] *)
Definition captures (n : nat) (P : pos) (p : coord) (c : color) : Prop :=
  exists q, on n q /\ taken n (put P p c) p c q.

(** [q] is the only stone captured when [c] plays on [p] *)
Definition captures_only (n : nat) (P : pos) (p : coord) (c : color) (q : coord) : Prop :=
  on n q /\ taken n (put P p c) p c q /\
  forall q', on n q' -> taken n (put P p c) p c q' -> q' = q.

(** the position after the move stood on the board before *)
Definition repeats_history (n : nat) (g : game) (p : coord) : Prop :=
  exists R y, go_move false n (position g) p (gm_turn g) R /\ y ∈ gm_history g /\ same_pos n R (pos_of y).

(** the same game with another recorded outcome *)
Definition with_outcome (g : game) (o : option endgame) : game :=
  mkGame (gm_goban g) (gm_passes g) (gm_prisoners g) o (gm_turn g) (gm_rule g) (gm_handicap g) (gm_history g) (gm_ko_point g).

(** a stone of the group number [i] is next to [p] *)
Definition near_group (n : nat) (g : goban) (i : nat) (p : coord) : Prop :=
  exists q, on n q /\ adj p q /\ group_no g q = Some i.

(** [p] has the shape of an eye of either colour *)
Definition some_eye (n : nat) (g : game) (p : coord) : Prop :=
  eye_shape n (position g) Black p \/ eye_shape n (position g) White p.

(** all group numbers are in use *)
Definition no_slot_left (g : game) : Prop := N.of_nat (length (chains (gm_goban g))) = 65535%N.
