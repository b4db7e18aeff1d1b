(** Model of the liberty bitset and of [Group] in src/pieces/group.rs. *)
From Verif Require Export Coord.

(** src/pieces/group.rs:11-18: [Bucket = u8], [SIZE = 361 / 8 + 1 = 46],
    [BITS = 8], [Liberties = [u8; 46]]. *)
Definition BITS : nat := 8.
(** src/pieces/group.rs:13 *)
Definition SIZE : nat := 46.
(** src/pieces/group.rs:16 *)
Notation liberties := (list N).
(** src/pieces/group.rs:18 *)
Definition EMPTY_LIBERTIES : liberties := replicate SIZE 0%N.

(** the values of the Rust type [[u8; 46]], src/pieces/group.rs:16 *)
Definition bits_ok (l : list N) : Prop :=
  length l = 46%nat /\ Forall (fun x => (x < 256)%N) l.

(** src/pieces/group.rs:21-30 [set::<VAL>].  [!mask] on u8 is [lnot mask 8]. *)
Definition lib_set (val : bool) (index : nat) (lib : liberties) : res liberties :=
  let chunk := index / BITS in
  let bit_index := index mod BITS in
  let mask := N.shiftl 1 (N.of_nat bit_index) in
  let! old := vget lib chunk in
  if val then vset lib chunk (N.lor old mask)
  else vset lib chunk (N.land old (N.lnot mask 8)).

(** src/pieces/group.rs:33-35 [merge]: both arrays have the same fixed length. *)
Definition lib_merge (lib o : liberties) : liberties := zip_with N.lor lib o.

(** src/pieces/group.rs:38-40 [any] *)
Definition lib_any (lib : liberties) : bool :=
  existsb (fun x => negb (x =? 0)%N) lib.

(** [u8::count_ones], src/pieces/group.rs:44 *)
Definition count_ones_u8 (x : N) : nat :=
  length (List.filter (fun b => N.testbit x (N.of_nat b)) (seq 0 8)).

(** src/pieces/group.rs:43-45 [count_ones] *)
Definition lib_count_ones (lib : liberties) : nat :=
  sum_list_with count_ones_u8 lib.

(** [u8::trailing_zeros] (8 for 0), src/pieces/group.rs:53 *)
Definition trailing_zeros_u8 (x : N) : nat :=
  match List.find (fun b => N.testbit x (N.of_nat b)) (seq 0 8) with
  | Some b => b
  | None => 8
  end.

(** [u8::checked_shr(n).unwrap_or(0)], src/pieces/group.rs:56 *)
Definition checked_shr_or_0 (x : N) (n : nat) : N :=
  if (n <? 8)%nat then N.shiftr x (N.of_nat n) else 0%N.

(** src/pieces/group.rs:49-57: the [while chunk != 0] loop of [iter_ones].  The
    fuel is checked: running out is [Diverge]. *)
Fixpoint iter_ones_chunk (fuel : nat) (chunk : N) (index ix : nat) (ixs : list nat)
  : res (list nat) :=
  match fuel with
  | O => Diverge
  | S f =>
      if (chunk =? 0)%N then Ok ixs
      else
        let zeros := trailing_zeros_u8 chunk in
        let index := (index + zeros + 1)%nat in
        let! ixs := av_push BITS ixs (index - 1 + BITS * ix)%nat in
        iter_ones_chunk f (checked_shr_or_0 chunk (zeros + 1)) index ix ixs
  end.

(** src/pieces/group.rs:47-60 [iter_ones], collected. *)
Fixpoint iter_ones_from (ix : nat) (lib : liberties) : res (list nat) :=
  match lib with
  | [] => Ok []
  | chunk :: t =>
      let! here := iter_ones_chunk 9 chunk 0 ix [] in
      let! rest := iter_ones_from (S ix) t in
      Ok (here ++ rest)
  end.
(** src/pieces/group.rs:47-60 [iter_ones], collected *)
Definition lib_iter_ones (lib : liberties) : res (list nat) := iter_ones_from 0 lib.

(** src/pieces/group.rs:62-66 [get] *)
Definition lib_get (index : nat) (lib : liberties) : res bool :=
  let chunk := index / BITS in
  let bit_index := index mod BITS in
  let! x := vget lib chunk in
  Ok (negb (N.land x (N.shiftl 1 (N.of_nat bit_index)) =? 0)%N).

(** src/pieces/group.rs:68-75 [struct Group].  [origin], [last] are u16 board
    indices: they are below 5101 whatever the input coordinates, so the casts
    [as u16] are the identity.  [num_stones] is a u16. *)
Record group := mkGroup {
  g_color : color;
  g_origin : nat;
  g_last : nat;
  g_liberties : liberties;
  g_num_stones : nat
}.

(** assignment to the field [liberties], as in src/pieces/group.rs:117-157 *)
Definition with_liberties (g : group) (l : liberties) : group :=
  mkGroup (g_color g) (g_origin g) (g_last g) l (g_num_stones g).

(** src/pieces/group.rs:83-91 *)
Definition new_with_liberties (c : color) (stone : nat) (l : liberties) : group :=
  mkGroup c stone stone l 1.

(** src/pieces/group.rs:94-97 *)
Definition is_dead (g : group) : bool := negb (lib_any (g_liberties g)).

(** src/pieces/group.rs:100-103 *)
Definition number_of_liberties (g : group) : nat := lib_count_ones (g_liberties g).

(** src/pieces/group.rs:107-109 *)
Definition is_atari (g : group) : bool := (number_of_liberties g =? 1)%nat.

(** src/pieces/group.rs:112-115 *)
Definition contains_liberty (g : group) (i : nat) : res bool :=
  lib_get i (g_liberties g).

(** src/pieces/group.rs:118-125 *)
Definition remove_liberty (dbg : bool) (g : group) (i : nat) : res group :=
  let! _ := debug_assert dbg (lib_get i (g_liberties g)) in
  let! l := lib_set false i (g_liberties g) in
  Ok (with_liberties g l).

(** src/pieces/group.rs:128-131 *)
Definition add_liberty_unchecked (g : group) (i : nat) : res group :=
  let! l := lib_set true i (g_liberties g) in
  Ok (with_liberties g l).

(** src/pieces/group.rs:134-142 *)
Definition add_liberty (dbg : bool) (g : group) (i : nat) : res group :=
  let! _ := debug_assert dbg (let! b := lib_get i (g_liberties g) in Ok (negb b)) in
  add_liberty_unchecked g i.

(** src/pieces/group.rs:159-164 *)
Definition union_liberties_slice (g : group) (l : list nat) : res group :=
  foldM add_liberty_unchecked l g.

(** src/pieces/group.rs:166-168 *)
Definition group_liberties (g : group) : res (list nat) :=
  lib_iter_ones (g_liberties g).

(** src/pieces/group.rs:245-262 [CircularGroupIter::next], run to exhaustion
    from the state [next = Some cur]: the list of all values it yields.  Each
    call computes the successor of the value it returns; the iteration stops
    when the successor is [origin]; a debug build panics when a stone is its own
    successor without being the origin.
    Fuel: a walk that has not met [origin] again after one step per array slot
    never does, because the successor is a function of the current slot; hence
    [Diverge] on exhaustion (see [group_iter]). *)
Fixpoint iter_from (fuel : nat) (dbg : bool) (next_stone : list nat)
    (origin cur : nat) : res (list nat) :=
  match fuel with
  | O => Diverge
  | S f =>
      let! nx := vget next_stone cur in
      if (nx =? origin)%nat then Ok [cur]
      else if dbg && (nx =? cur)%nat then Panic
      else let! t := iter_from f dbg next_stone origin nx in Ok (cur :: t)
  end.

(** src/pieces/group.rs:170-177 [Group::iter], collected, as the callers do that
    use [last] or [count].  See [group_for] for loops with a body. *)
Definition group_iter (dbg : bool) (g : group) (next_stone : list nat)
  : res (list nat) :=
  iter_from (S (length next_stone)) dbg next_stone (g_origin g) (g_origin g).

(** A [for] loop over the iterator of src/pieces/group.rs:245-262, as in
    src/pieces/goban.rs:458-468 and 481-483: the body [f] runs after each call of
    [next], so a panic in the body comes before the rest of the walk.  No body
    changes [next_stone].
    Fuel: twice one step per array slot.  After the first round the bodies of the two
    loops only repeat what they did, so a loop that has not stopped in the second
    round never does; hence [Diverge]. *)
Fixpoint for_from {S} (fuel : nat) (dbg : bool) (next_stone : list nat)
    (origin cur : nat) (f : S -> nat -> res S) (s : S) : res S :=
  match fuel with
  | O => Diverge
  | Datatypes.S k =>
      let! nx := vget next_stone cur in
      if (nx =? origin)%nat then f s cur
      else if dbg && (nx =? cur)%nat then Panic
      else let! s := f s cur in for_from k dbg next_stone origin nx f s
  end.
(** a [for] loop over [Group::iter], src/pieces/group.rs:170-177 and 245-262 *)
Definition group_for {S} (dbg : bool) (g : group) (next_stone : list nat)
    (f : S -> nat -> res S) (s : S) : res S :=
  for_from (2 * Datatypes.S (length next_stone)) dbg next_stone (g_origin g) (g_origin g) f s.

(** src/pieces/group.rs:264-267 [CircularGroupIter::size_hint] (both bounds) of
    a fresh iterator. *)
Definition group_iter_size_hint (g : group) : nat := g_num_stones g.

(** src/pieces/group.rs:181 [Groups] and its operations. *)
Notation groups := (list (option group)).

(** src/pieces/group.rs:183-209 [Index]/[IndexMut]: panics on a missing or
    removed group. *)
Definition chain_at (cs : groups) (i : nat) : res group :=
  let! o := vget cs i in unwrap o.
(** assignment through [IndexMut], src/pieces/group.rs:183-209 *)
Definition chain_put (cs : groups) (i : nat) (g : group) : res groups :=
  let! _ := chain_at cs i in vset cs i (Some g).

(** src/pieces/group.rs:216-219 *)
Definition put_free_spot (cs : groups) (g : group) : groups * nat :=
  (cs ++ [Some g], length cs).

(** src/pieces/group.rs:221-223 *)
Definition chains_remove (cs : groups) (i : nat) : res groups := vset cs i None.

(** src/pieces/group.rs:225-227 *)
Definition chains_iter (cs : groups) : list group := omap id cs.
