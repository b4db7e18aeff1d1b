(** Model of src/pieces/goban.rs. *)
From Verif Require Export Bitset Zobrist Float32.

(** src/pieces/goban.rs:22-24; [MAX_CHAINS] is only an initial capacity. *)
Definition BOARD_MAX_LENGTH : nat := 361.

(** src/pieces/goban.rs:28-35 [struct Goban] *)
Record goban := mkGoban {
  chains : groups;
  board : list (option nat);
  next_stone : list nat;
  gsize : size_t;
  zobrist_hash : N
}.

(** assignments to the fields of the struct above, as in
    src/pieces/goban.rs:153-227 and 468-529 *)
Definition with_chains (g : goban) (x : groups) : goban :=
  mkGoban x (board g) (next_stone g) (gsize g) (zobrist_hash g).
(** assignment to [board], as in src/pieces/goban.rs:482 *)
Definition with_board (g : goban) (x : list (option nat)) : goban :=
  mkGoban (chains g) x (next_stone g) (gsize g) (zobrist_hash g).
(** assignment to [next_stone], as in src/pieces/goban.rs:506, 571-572 *)
Definition with_next (g : goban) (x : list nat) : goban :=
  mkGoban (chains g) (board g) x (gsize g) (zobrist_hash g).
(** assignment to [zobrist_hash], as in src/pieces/goban.rs:153-227 *)
Definition with_hash (g : goban) (x : N) : goban :=
  mkGoban (chains g) (board g) (next_stone g) (gsize g) x.

(** src/pieces/stones.rs:50-55 [Point], [Stone] *)
Definition point := (coord * option color)%type.
(** src/pieces/stones.rs:55 [Stone] *)
Definition stone := (coord * color)%type.

(** derived [PartialEq] of [Point], src/pieces/stones.rs:49 *)
Definition point_eqb (a b : point) : bool :=
  coord_eqb (fst a) (fst b) && mcolor_eqb (snd a) (snd b).

(** src/pieces/goban.rs:58-71 [Goban::new] *)
Definition goban_new (s : size_t) : res goban :=
  let! _ := assert_ ((fst s <=? 19)%nat && (snd s <=? 19)%nat) in
  Ok (mkGoban [] (replicate BOARD_MAX_LENGTH None) (replicate BOARD_MAX_LENGTH 0%nat)
        s 0%N).

(** src/pieces/goban.rs:488-490 [neighbors_coords] *)
Definition neighbors_coords (dbg : bool) (g : goban) (p : coord) : res (list coord) :=
  valid_coords dbg p (gsize g).

(** src/pieces/goban.rs:493-497 [neighbors_idx] *)
Definition neighbors_idx (dbg : bool) (s : size_t) (i : nat) : res (list nat) :=
  let! p := one_to_2dim s i in
  let! l := valid_coords dbg p s in
  Ok (List.map (two_to_1dim s) l).

(** src/pieces/goban.rs:345-348 [get_color], for an index and for a coordinate
    ([IntoIdx], src/pieces/util.rs:82-96) *)
Definition get_color_idx (g : goban) (i : nat) : res (option color) :=
  let! cell := vget (board g) i in
  match cell with
  | None => Ok None
  | Some k => let! grp := chain_at (chains g) k in Ok (Some (g_color grp))
  end.
(** src/pieces/goban.rs:345-348 [get_color], for a coordinate *)
Definition get_color (g : goban) (p : coord) : res (option color) :=
  get_color_idx g (two_to_1dim (gsize g) p).

(** src/pieces/goban.rs:306-311 [get_connected_points], collected (the iterator
    is lazy; see [anyM] for the short-circuiting uses) *)
Definition get_connected_points (dbg : bool) (g : goban) (p : coord) : res (list point) :=
  let! l := neighbors_coords dbg g p in
  mapM (fun q => let! c := get_color g q in Ok (q, c)) l.

(** src/pieces/goban.rs:315-319 [get_connected_stones] for a coordinate *)
Definition get_connected_stones (dbg : bool) (g : goban) (p : coord) : res (list stone) :=
  let! l := get_connected_points dbg g p in
  Ok (omap (fun x : point => match snd x with Some c => Some (fst x, c) | None => None end) l).

(** src/pieces/goban.rs:331-342 [get_connected_groups_idx] for an index *)
Definition get_connected_groups_idx (dbg : bool) (g : goban) (i : nat) : res (list nat) :=
  let! l := neighbors_idx dbg (gsize g) i in
  foldM (fun acc j =>
           let! cell := vget (board g) j in
           match cell with
           | Some k => if mem k acc then Ok acc else av_push 4 acc k
           | None => Ok acc
           end) l [].

(** src/pieces/goban.rs:322-327 [get_connected_groups] for a coordinate *)
Definition get_connected_groups (dbg : bool) (g : goban) (p : coord) : res (list group) :=
  let! l := get_connected_groups_idx dbg g (two_to_1dim (gsize g) p) in
  mapM (chain_at (chains g)) l.

(** src/pieces/goban.rs:473-484 [update_chain_indexes_in_board] *)
Definition update_chain_indexes_in_board (dbg : bool) (g : goban) (k : nat) : res goban :=
  let! _ := debug_assert dbg
      (let! grp := chain_at (chains g) k in
       let! l := group_iter dbg grp (next_stone g) in
       let! x := unwrap (last l) in
       Ok (x =? g_last grp)%nat) in
  let! grp := chain_at (chains g) k in
  let! b := group_for dbg grp (next_stone g)
              (fun b p => let! k' := nonmax_u16 k in vset b p (Some k')) (board g) in
  Ok (with_board g b).

(** src/pieces/goban.rs:500-510 [create_chain] *)
Definition create_chain (dbg : bool) (g : goban) (origin : nat) (c : color)
    (libs : list nat) : res (goban * nat) :=
  let! bits := foldM (fun l i => lib_set true i l) libs EMPTY_LIBERTIES in
  let grp := new_with_liberties c origin bits in
  let! nx := vset (next_stone g) origin origin in
  let (cs, k) := put_free_spot (chains g) grp in
  let! g' := update_chain_indexes_in_board dbg (with_chains (with_next g nx) cs) k in
  Ok (g', k).

(** src/pieces/goban.rs:512-529 [add_stone_to_chain] *)
Definition add_stone_to_chain (dbg : bool) (g : goban) (k stone : nat) : res goban :=
  let! grp := chain_at (chains g) k in
  let! '(nx, origin, lst) :=
    (if (stone <? g_origin grp)%nat then
       let! nx := vset (next_stone g) stone (g_origin grp) in
       let! nx := vset nx (g_last grp) stone in
       Ok (nx, stone, g_last grp)
     else
       let! nx := vset (next_stone g) (g_last grp) stone in
       let! nx := vset nx stone (g_origin grp) in
       Ok (nx, g_origin grp, stone)) in
  let! num := u16_add dbg (g_num_stones grp) 1 in
  let grp' := mkGroup (g_color grp) origin lst (g_liberties grp) num in
  let! cs := chain_put (chains g) k grp' in
  let g' := with_chains (with_next g nx) cs in
  let! _ := debug_assert dbg
      (let! l := group_iter dbg grp' (next_stone g') in
       let! x := unwrap (last l) in
       Ok (x =? g_last grp')%nat) in
  Ok g'.

(** src/pieces/goban.rs:531-578 [merge_strings] *)
Definition merge_strings (dbg : bool) (g : goban) (k1 k2 : nat) : res goban :=
  let! c1 := chain_at (chains g) k1 in
  let! c2 := chain_at (chains g) k2 in
  let! _ := assert_ (color_eqb (g_color c1) (g_color c2)) in
  let! _ := assert_ (negb (k1 =? k2)%nat) in
  let bits := lib_merge (g_liberties c1) (g_liberties c2) in
  let '(origin, lst) :=
    if (g_origin c2 <? g_origin c1)%nat then (g_origin c2, g_last c1)
    else (g_origin c1, g_last c2) in
  let! nx := vswap (next_stone g) (g_last c1) (g_last c2) in
  let! num := u16_add dbg (g_num_stones c1) (g_num_stones c2) in
  let! cs := chain_put (chains g) k1 (mkGroup (g_color c1) origin lst bits num) in
  let! g' := update_chain_indexes_in_board dbg (with_chains (with_next g nx) cs) k1 in
  let! cs' := chains_remove (chains g') k2 in
  Ok (with_chains g' cs').

(** src/pieces/goban.rs:580-597 [check_integrity_ren] (debug builds) *)
Definition check_integrity_ren (dbg : bool) (g : goban) (k : nat) : res unit :=
  let! grp := chain_at (chains g) k in
  let! l := group_iter dbg grp (next_stone g) in
  let! first := unwrap (head l) in
  let! _ := assert_ (first =? g_origin grp)%nat in
  let! lst := unwrap (last l) in
  let! _ := assert_ (lst =? g_last grp)%nat in
  assert_ (N.of_nat (length l) mod 65536 =? N.of_nat (g_num_stones grp))%N.

(** src/pieces/goban.rs:604-610 [check_integrity_all] (debug builds) *)
Definition check_integrity_all (dbg : bool) (g : goban) : res unit :=
  foldM (fun _ k => match chains g !! k with
                    | Some (Some _) => check_integrity_ren dbg g k
                    | _ => Ok tt
                    end) (seq 0 (length (chains g))) tt.

(** src/pieces/goban.rs:164-180: sort the neighbours of the pushed stone into
    groups of the same colour, groups of the other colour, and liberties. *)
Definition classify (g : goban) (c : color) (nbs : list nat)
  : res (list nat * list nat * list nat) :=
  foldM (fun '(same, oppo, libs) j =>
           let! cell := vget (board g) j in
           match cell with
           | Some k =>
               let! grp := chain_at (chains g) k in
               if color_eqb (g_color grp) c then
                 if mem k same then Ok (same, oppo, libs)
                 else let! same' := av_push 4 same k in Ok (same', oppo, libs)
               else
                 if mem k oppo then Ok (same, oppo, libs)
                 else let! oppo' := av_push 4 oppo k in Ok (same, oppo', libs)
           | None => let! libs' := av_push 4 libs j in Ok (same, oppo, libs')
           end) nbs ([], [], []).

(** src/pieces/goban.rs:182-190: take the liberty away from the neighbouring
    groups of the other colour; collect those left without any. *)
Definition remove_liberties (dbg : bool) (cs : groups) (oppo : list nat) (p : nat)
  : res (groups * list nat) :=
  foldM (fun '(cs, dead) k =>
           let! grp := chain_at cs k in
           let! grp' := remove_liberty dbg grp p in
           let! cs' := chain_put cs k grp' in
           if is_dead grp' then let! dead' := av_push 4 dead k in Ok (cs', dead')
           else Ok (cs', dead)) oppo (cs, []).

(** src/pieces/goban.rs:206-218: the stone joins two or more groups. *)
Definition merge_all (dbg : bool) (g : goban) (to_merge : nat) (same : list nat)
  : res (goban * nat) :=
  foldM (fun '(g, t) a =>
           let! ga := chain_at (chains g) a in
           let! gt := chain_at (chains g) t in
           if (number_of_liberties ga <? number_of_liberties gt)%nat then
             let! g' := merge_strings dbg g t a in Ok (g', t)
           else
             let! g' := merge_strings dbg g a t in Ok (g', a)) same (g, to_merge).

(** src/pieces/goban.rs:192-220 *)
Definition place_stone (dbg : bool) (g : goban) (p : nat) (c : color)
    (same libs : list nat) : res (goban * nat) :=
  match same with
  | [] => create_chain dbg g p c libs
  | [only] =>
      let! grp := chain_at (chains g) only in
      let! grp := remove_liberty dbg grp p in
      let! grp := union_liberties_slice grp libs in
      let! cs := chain_put (chains g) only grp in
      let! g := add_stone_to_chain dbg (with_chains g cs) only p in
      let! k := nonmax_u16 only in
      let! b := vset (board g) p (Some k) in
      Ok (with_board g b, only)
  | _ =>
      let! '(g, t) := create_chain dbg g p c libs in
      let! '(g, t) := merge_all dbg g t same in
      let! grp := chain_at (chains g) t in
      let! grp := remove_liberty dbg grp p in
      let! cs := chain_put (chains g) t grp in
      Ok (with_chains g cs, t)
  end.

(** src/pieces/goban.rs:152-225 [push_wth_feedback]: the new board, the groups of
    the other colour left without liberties, the group of the pushed stone. *)
Definition push_wth_feedback (dbg : bool) (g : goban) (pt : coord) (c : color)
  : res (goban * list nat * nat) :=
  let p := two_to_1dim (gsize g) pt in
  let! nbs := neighbors_idx dbg (gsize g) p in
  let! '(same, oppo, libs) := classify g c nbs in
  let! '(cs, dead) := remove_liberties dbg (chains g) oppo p in
  let! '(g', u) := place_stone dbg (with_chains g cs) p c same libs in
  let! z := index_zobrist p c in
  let g'' := with_hash g' (N.lxor (zobrist_hash g') z) in
  let! _ := (if dbg then check_integrity_all dbg g'' else Ok tt) in
  Ok (g'', dead, u).

(** src/pieces/goban.rs:455-470 [remove_chain] *)
Definition remove_chain (dbg : bool) (g : goban) (k : nat) : res goban :=
  let! chain := chain_at (chains g) k in
  let! g' :=
    group_for dbg chain (next_stone g) (fun g p =>
             let! nbs := get_connected_groups_idx dbg g p in
             let nbs := List.filter (fun x => negb (x =? k)%nat) nbs in
             let! cs := foldM (fun cs n =>
                                 let! grp := chain_at cs n in
                                 let! grp' := add_liberty dbg grp p in
                                 chain_put cs n grp') nbs (chains g) in
             let! z := index_zobrist p (g_color chain) in
             let! b := vset (board g) p None in
             Ok (mkGoban cs b (next_stone g) (gsize g) (N.lxor (zobrist_hash g) z))) g in
  let! cs := chains_remove (chains g') k in
  Ok (with_chains g' cs).

(** src/pieces/goban.rs:227-267 [remove_captured_stones_aux]: the new board,
    (stones won by Black, stones won by White), the ko point.  The counters are
    u32 and cannot overflow here: at most five groups of at most 65535 stones. *)
Definition remove_captured_stones_aux (dbg : bool) (g : goban) (suicide_allowed : bool)
    (dead_rens : list nat) (added_chain : nat)
  : res (goban * (N * N) * option coord) :=
  let only_one := (length dead_rens =? 1)%nat in
  let! '(g1, removed, ko) :=
    foldM (fun '(g, removed, ko) d =>
             let! dead := chain_at (chains g) d in
             let! ko' :=
               (if (g_num_stones dead =? 1)%nat && only_one then
                  let! q := one_to_2dim (gsize g) (g_origin dead) in Ok (Some q)
                else Ok ko) in
             let num := N.of_nat (g_num_stones dead) in
             let removed' :=
               match g_color dead with
               | White => (fst removed + num, snd removed)%N
               | Black => (fst removed, snd removed + num)%N
               end in
             let! g' := remove_chain dbg g d in
             Ok (g', removed', ko')) dead_rens (g, (0%N, 0%N), None) in
  let! mine := chain_at (chains g1) added_chain in
  if suicide_allowed && is_dead mine then
    let num := N.of_nat (g_num_stones mine) in
    let removed' :=
      match g_color mine with
      | White => (fst removed + num, snd removed)%N
      | Black => (fst removed, snd removed + num)%N
      end in
    let! g2 := remove_chain dbg g1 added_chain in
    Ok (g2, removed', None)
  else Ok (g1, removed, ko).

(** src/pieces/goban.rs:275-288 [push] *)
Definition push (dbg : bool) (g : goban) (pt : coord) (c : color) : res goban :=
  let! _ := debug_assert dbg (Ok (fst pt <? fst (gsize g))%nat) in
  let! _ := debug_assert dbg (Ok (snd pt <? snd (gsize g))%nat) in
  let! '(g', _, _) := push_wth_feedback dbg g pt c in
  Ok g'.

(** src/pieces/goban.rs:292-294 [push_stone] *)
Definition push_stone (dbg : bool) (g : goban) (s : stone) : res goban :=
  push dbg g (fst s) (snd s).

(** src/pieces/goban.rs:298-302 [push_many] *)
Definition push_many (dbg : bool) (g : goban) (pts : list coord) (c : color) : res goban :=
  foldM (fun g p => push dbg g p c) pts g.

(** src/pieces/goban.rs:37-51 [From<&[MaybeColor]>] *)
Definition goban_from (dbg : bool) (stones : list (option color)) : res goban :=
  let n := f32_as_u8 (f32_sqrt (f32_of_N (N.of_nat (length stones)))) in
  let! g := goban_new (n, n) in
  foldM (fun g '(i, mc) =>
           let! p := one_to_2dim (n, n) i in
           match mc with
           | Some c => push dbg g p c
           | None => Ok g
           end) (zip (seq 0 (length stones)) stones) g.

(** src/pieces/goban.rs:82-84 [chains()] *)
Definition all_chains (g : goban) : list group := chains_iter (chains g).

(** src/pieces/goban.rs:86-94 [chain_stones] for a group index *)
Definition chain_stones (dbg : bool) (g : goban) (k : nat) : res (list stone) :=
  let! chain := chain_at (chains g) k in
  let! l := group_iter dbg chain (next_stone g) in
  mapM (fun e => let! p := one_to_2dim (gsize g) e in Ok (p, g_color chain)) l.

(** src/pieces/goban.rs:100-104 and 112-117: the colour shown by one cell of the
    board array *)
Definition cell_color (g : goban) (cell : option nat) : res (option color) :=
  match cell with
  | None => Ok None
  | Some k => let! grp := chain_at (chains g) k in Ok (Some (g_color grp))
  end.

(** src/pieces/goban.rs:97-106 [to_vec] *)
Definition to_vec (g : goban) : res (list (option color)) :=
  mapM (cell_color g) (board g).

(** src/pieces/goban.rs:109-119 [matrix]; [chunks_exact(0)] panics *)
Definition matrix (g : goban) : res (list (list (option color))) :=
  let w := snd (gsize g) in
  let! _ := assert_ (negb (w =? 0)%nat) in
  mapM (fun r => mapM (cell_color g) (take w (drop (r * w) (board g))))
       (seq 0 (length (board g) / w)).

(** src/pieces/goban.rs:123-139 [number_of_stones]; u32 sums of u16 counters,
    written without wrap-around (see C19 for the bound) *)
Definition number_of_stones (g : goban) : nat * nat :=
  fold_left (fun '(b, w) grp =>
               match g_color grp with
               | White => (b, w + g_num_stones grp)%nat
               | Black => (b + g_num_stones grp, w)%nat
               end) (all_chains g) (0, 0)%nat.

(** src/pieces/goban.rs:352-359 [get_stones], collected *)
Definition get_stones (g : goban) : res (list stone) :=
  foldM (fun acc '(i, cell) =>
           match cell with
           | None => Ok acc
           | Some k =>
               let! p := one_to_2dim (gsize g) i in
               let! grp := chain_at (chains g) k in
               Ok (acc ++ [(p, g_color grp)])
           end) (zip (seq 0 (length (board g))) (board g)) [].

(** src/pieces/goban.rs:368-373 [get_empty_idx], as written: it keeps the
    indices of the cells that are [Some _] *)
Definition get_empty_idx (g : goban) : list nat :=
  omap (fun '(i, cell) => match cell with Some _ => Some i | None => None end)
       (zip (seq 0 (length (board g))) (board g)).

(** src/pieces/goban.rs:375-387 [get_empty_coords], collected; the slice
    [self.board[..board_length]] panics when it is too long *)
Definition get_empty_coords (g : goban) : res (list coord) :=
  let len := (fst (gsize g) * snd (gsize g))%nat in
  let! _ := assert_ (len <=? length (board g))%nat in
  foldM (fun acc '(i, cell) =>
           match cell with
           | Some _ => Ok acc
           | None => let! p := one_to_2dim (gsize g) i in Ok (acc ++ [p])
           end) (zip (seq 0 len) (take len (board g))) [].

(** src/pieces/goban.rs:391-403 [get_coords_by_color]: the bound
    [self.size.0 * self.size.1] is a u8 product *)
Definition get_coords_by_color (dbg : bool) (g : goban) (mc : option color)
  : res (list coord) :=
  let! len := u8_mul dbg (fst (gsize g)) (snd (gsize g)) in
  foldM (fun acc i =>
           match mc with
           | None => let! p := one_to_2dim (gsize g) i in av_push BOARD_MAX_LENGTH acc p
           | Some c =>
               let! cell := vget (board g) i in
               match cell with
               | None => Ok acc
               | Some k =>
                   let! grp := chain_at (chains g) k in
                   if color_eqb (g_color grp) c then
                     let! p := one_to_2dim (gsize g) i in av_push BOARD_MAX_LENGTH acc p
                   else Ok acc
               end
           end) (seq 0 len) [].

(** src/pieces/goban.rs:363-366 [get_stones_by_color], collected *)
Definition get_stones_by_color (dbg : bool) (g : goban) (mc : option color)
  : res (list point) :=
  let! l := get_coords_by_color dbg g mc in Ok (List.map (fun p => (p, mc)) l).

(** src/pieces/goban.rs:407-410 [get_liberties], collected *)
Definition get_liberties (dbg : bool) (g : goban) (p : coord) : res (list coord) :=
  let! l := neighbors_coords dbg g p in
  filterM (fun x => let! c := get_color g x in Ok (mcolor_eqb c None)) l.

(** src/pieces/goban.rs:414-416 [has_liberties] (stops at the first one) *)
Definition has_liberties (dbg : bool) (g : goban) (p : coord) : res bool :=
  let! l := neighbors_coords dbg g p in
  anyM (fun x => let! c := get_color g x in Ok (mcolor_eqb c None)) l.

(** The characters pushed by [pretty_string] (src/pieces/goban.rs:423-448). *)
Inductive glyph :=
| BlackDisc      (* U+25CF *)
| WhiteDisc      (* U+25CB *)
| TopLeft | TopRight | BottomLeft | BottomRight   (* U+250F U+2513 U+2517 U+251B *)
| TopEdge | BottomEdge | LeftEdge | RightEdge     (* U+252F U+2537 U+2520 U+2528 *)
| Cross                                           (* U+253C *)
| NewLine.

(** src/pieces/goban.rs:427-444 *)
Definition empty_glyph (h w i j : nat) : glyph :=
  match (i =? 0)%nat, (i =? h - 1)%nat, (j =? 0)%nat, (j =? w - 1)%nat with
  | true, _, true, _ => TopLeft
  | true, _, _, true => TopRight
  | _, true, true, _ => BottomLeft
  | _, true, _, true => BottomRight
  | true, _, _, _ => TopEdge
  | _, true, _, _ => BottomEdge
  | _, _, true, _ => LeftEdge
  | _, _, _, true => RightEdge
  | _, _, _, _ => Cross
  end.

(** src/pieces/goban.rs:419-451 [pretty_string] *)
Definition pretty_string (g : goban) : res (list glyph) :=
  let (h, w) := gsize g in
  let! lines :=
    mapM (fun i =>
            let! row :=
              mapM (fun j =>
                      let! c := get_color g (i, j) in
                      Ok (match c with
                          | Some Black => BlackDisc
                          | Some White => WhiteDisc
                          | None => empty_glyph h w i j
                          end)) (seq 0 w) in
            Ok (row ++ [NewLine])) (seq 0 h) in
  Ok (List.concat lines).

(** src/pieces/goban.rs:631-647 [PartialEq for Goban]: the double loop returns
    at the first difference *)
Definition goban_eq (a b : goban) : res bool :=
  if negb ((fst (gsize a) =? fst (gsize b))%nat && (snd (gsize a) =? snd (gsize b))%nat)
     || negb (zobrist_hash a =? zobrist_hash b)%N
  then Ok false
  else
    let! differ :=
      anyM (fun p =>
              let! ca := get_color a p in
              let! cb := get_color b p in
              Ok (negb (mcolor_eqb ca cb)))
           (list_prod (seq 0 (fst (gsize a))) (seq 0 (snd (gsize a)))) in
    Ok (negb differ).

(** src/pieces/goban.rs:625-629 [Hash for Goban]: the value written to the hasher *)
Definition goban_hash (g : goban) : N := zobrist_hash g.
