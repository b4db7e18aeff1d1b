(** Model of the parts of src/pieces/group.rs and src/rules/dead_stones.rs that the
    rest of the library does not need: the iterator over the stones of a group call
    by call, further methods of [Group] and [Groups], and the reward of the tree
    search. *)
From Verif Require Export DeadStones.

(** src/pieces/group.rs:237-243 [CircularGroupIter]; the slice [next_stone] is an
    argument of the methods *)
Record circular_iter := mkIter { it_origin : nat; it_next : option nat; it_num_stones : nat }.

(** src/pieces/group.rs:170-177 [Group::iter] *)
Definition iter_new (g : group) : circular_iter := mkIter (g_origin g) (Some (g_origin g)) (g_num_stones g).

(** src/pieces/group.rs:248-262 [next]: the iterator afterwards and the item *)
Definition iter_next (dbg : bool) (next_stone : list nat) (it : circular_iter) : res (circular_iter * option nat) :=
  let! nx :=
    match it_next it with
    | Some i => let! o := vget next_stone i in Ok (if negb (o =? it_origin it)%nat then Some o else None)
    | None => Ok None
    end in
  let it' := mkIter (it_origin it) nx (it_num_stones it) in
  if dbg && match it_next it, nx with Some i, Some j => (i =? j)%nat | _, _ => false end then Panic
  else Ok (it', it_next it).

(** src/pieces/group.rs:264-266 [size_hint] and the [len] that [ExactSizeIterator]
    (line 269) derives from it *)
Definition iter_size_hint (it : circular_iter) : nat * option nat := (it_num_stones it, Some (it_num_stones it)).

(** the iterator after [k] calls of [next] (src/pieces/group.rs:245-262) *)
Fixpoint iter_after (dbg : bool) (next_stone : list nat) (it : circular_iter) (k : nat) : res circular_iter :=
  match k with
  | O => Ok it
  | S k => let! '(it', _) := iter_next dbg next_stone it in iter_after dbg next_stone it' k
  end.

(** src/pieces/group.rs:79-81 [Group::new] *)
Definition group_new (c : color) (stone : nat) : group := new_with_liberties c stone EMPTY_LIBERTIES.

(** src/pieces/group.rs:145-150 [add_liberties], the iterator given as a list *)
Definition add_liberties (dbg : bool) (g : group) (l : list nat) : res group := foldM (add_liberty dbg) l g.

(** src/pieces/group.rs:153-157 [union_liberties] *)
Definition union_liberties (g : group) (l : liberties) : group := with_liberties g (lib_merge (g_liberties g) l).

(** src/pieces/group.rs:229-234 [iter_with_index], collected *)
Definition iter_with_index (cs : groups) : list (nat * group) :=
  omap (fun '(i, o) => match o with Some g => Some (i, g) | None => None end) (zip (seq 0 (length cs)) cs).

(** src/rules/dead_stones.rs:79-86 [evaluate_leaf] *)
Definition evaluate_leaf (order : list point -> list point) (dbg : bool) (g : game) (turn : color) : res nat :=
  let! w := game_get_winner order dbg g in
  Ok (if color_eqb w turn then 1 else 0)%nat.
