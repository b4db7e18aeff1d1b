(** Model of src/rules/dead_stones.rs: the game interface of the tree search, the
    random playouts, [get_floating_stones] and the comparison with a final
    position in [dead_stones].  The tree search itself (crate oxymcts) is not
    modelled: the move it picks is an argument. *)
From Verif Require Export Game.

(** src/rules/dead_stones.rs:19-33 [legals_moves] *)
Definition legals_moves (dbg : bool) (g : game) : res (list move) :=
  let! l := legals_by dbg g (N.lor (flag_illegal (gm_rule g)) FILLEYE) in
  let moves := List.map (fun p : coord => MPlay (fst p) (snd p)) l in
  Ok (match moves with
      | [] => if is_over g then [] else [MPass]
      | _ => moves
      end).

(** src/rules/dead_stones.rs:51-56 [get_winner] *)
Definition game_get_winner (order : list point -> list point) (dbg : bool) (g : game)
  : res color :=
  let! o := outcome order dbg g in
  let! e := unwrap o in
  unwrap (endgame_winner e).

(** counter map of src/rules/dead_stones.rs:144-153:
    [entry(k).and_modify(|v| *v += 1).or_insert(0)] *)
Fixpoint bump (k : nat) (m : list (nat * nat)) : list (nat * nat) :=
  match m with
  | [] => [(k, 0%nat)]
  | (k', v) :: t => if (k =? k')%nat then (k', S v) :: t else (k', v) :: bump k t
  end.

(** src/rules/dead_stones.rs:134-165 [get_floating_stones]; [enumerate] numbers
    the live groups only *)
Definition get_floating_stones (dbg : bool) (g : game) : res (list nat) :=
  let! pts := pseudo_legals g in
  let! eyes := filterM (fun p => let! b := check_eye dbg g (p, Black) in
                                 if b then Ok true else check_eye dbg g (p, White)) pts in
  let! counts :=
    foldM (fun m p =>
             let! l := get_connected_groups_idx dbg (gm_goban g)
                         (two_to_1dim (gsize (gm_goban g)) p) in
             Ok (fold_left (fun m k => bump k m) l m)) eyes [] in
  let two_eyes := List.map fst (List.filter (fun '(_, v) => (2 <=? v)%nat) counts) in
  Ok (List.filter (fun i => mem i two_eyes)
        (seq 0 (length (all_chains (gm_goban g))))).

(** src/rules/dead_stones.rs:100-111, the loop of [fast_play_random]: the filter is
    lazy, so a point is checked only if all points before it were left out *)
Fixpoint first_playable (dbg : bool) (g : game) (l : list coord) : res move :=
  match l with
  | [] => Ok MPass
  | p :: t =>
      let! e := check_point dbg g p in
      match e with
      | Some _ => first_playable dbg g t
      | None =>
          let! b := check_eye dbg g (p, gm_turn g) in
          if b then first_playable dbg g t else Ok (MPlay (fst p) (snd p))
      end
  end.

(** src/rules/dead_stones.rs:97-112 [fast_play_random]; [shuffle] is what the random
    generator does to the list *)
Definition fast_play_random (shuffle : list coord -> list coord) (dbg : bool) (g : game) : res move :=
  let! v := pseudo_legals g in
  first_playable dbg g (shuffle v).

(** src/rules/dead_stones.rs:96-118 [playout].  [shuffles i] is the shuffle of the
    i-th move.  The [while] loop has fuel. *)
Fixpoint playout (fuel i : nat) (shuffles : nat -> list coord -> list coord) (dbg : bool) (g : game)
  : res game :=
  if is_over g then Ok g
  else match fuel with
       | O => Diverge
       | S fuel =>
           let! m := fast_play_random (shuffles i) dbg g in
           let! g' := play dbg g m in
           playout fuel (S i) shuffles dbg g'
       end.

(** src/rules/dead_stones.rs:170-179, the [while] loop of
    [dead_stones_wth_simulations].  The tree search starts from the moves offered
    by [legals_moves]; [search i g ms] is its i-th answer, asked about [g] with
    the moves [ms], or its panic.  The loop has fuel. *)
Fixpoint play_out (fuel i : nat) (search : nat -> game -> list move -> res move) (dbg : bool) (g : game)
  : res game :=
  if is_over g then Ok g
  else match fuel with
       | O => Diverge
       | S fuel =>
           let! ms := legals_moves dbg g in
           let! m := search i g ms in
           let! g' := play dbg g m in
           play_out fuel (S i) search dbg g'
       end.

(** src/rules/dead_stones.rs:167-200 [dead_stones_wth_simulations]; the set is
    returned as a list, in the order of insertion.  The stones of a group are
    collected before the loop of lines 183-190 runs; this differs from the source,
    which stops the walk at the first missing stone, only on boards whose walks
    do not end *)
Definition dead_stones (fuel : nat) (search : nat -> game -> list move -> res move) (dbg : bool) (g : game)
  : res (list nat) :=
  let! floating := get_floating_stones dbg g in
  let! final := play_out fuel 0 search dbg g in
  filterM (fun k =>
             let! l := chain_stones dbg (gm_goban g) k in
             anyM (fun s : stone =>
                     let! c := get_color (gm_goban final) (fst s) in
                     Ok (negb (mcolor_eqb c (Some (snd s))))) l) floating.
