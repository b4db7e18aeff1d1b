(** What a panic leaves behind.  The functions of src/pieces/goban.rs and
    src/rules/game.rs that change a board or a game in place, once more, with
    every assignment in the order of the source, so that the board or the game
    that a caller still holds after [std::panic::catch_unwind] is part of the
    answer.  The functions that only read ([classify], [check_point] and so on)
    are those of Goban.v and Game.v. *)
From Verif Require Export Builder.

(** A computation on a value [S] behind a [&mut] reference: the value afterwards,
    whether the computation returned or not, and the outcome; for example
    src/rules/game.rs:173 [fn play(&mut self, ..)]. *)
Definition mut (S A : Type) : Type := S -> S * res A.

(** nothing is read or written, as at src/pieces/goban.rs:204 *)
Definition mret {S A} (a : A) : mut S A := fun s => (s, Ok a).

(** two statements in sequence: the second does not run after a panic, but what
    the first one wrote stays; for example src/rules/game.rs:184-185 *)
Definition mbind {S A B} (m : mut S A) (k : A -> mut S B) : mut S B :=
  fun s => match m s with
           | (s', Ok a) => k a s'
           | (s', Panic) => (s', Panic)
           | (s', Diverge) => (s', Diverge)
           end.

Notation "'do!' x := m 'in' k" := (mbind m (fun x => k))
  (at level 200, x name, m at level 100, k at level 200, right associativity).
Notation "'do!' ' p := m 'in' k" := (mbind m (fun x => match x with p => k end))
  (at level 200, p pattern, m at level 100, k at level 200, right associativity).

(** an expression that reads and may panic, for example
    src/pieces/goban.rs:532-536 *)
Definition reads {S A} (f : S -> res A) : mut S A := fun s => (s, f s).

(** one assignment: a panic while the new value is computed comes before the
    write; for example src/pieces/goban.rs:506 *)
Definition writes {S} (f : S -> res S) : mut S unit :=
  fun s => match f s with
           | Ok s' => (s', Ok tt)
           | Panic => (s, Panic)
           | Diverge => (s, Diverge)
           end.

(** a [for] loop over a list, for example src/pieces/goban.rs:463-465 *)
Fixpoint meach {S A} (f : A -> mut S unit) (l : list A) : mut S unit :=
  match l with
  | [] => mret tt
  | x :: t => do! _ := f x in meach f t
  end.

(** a [for] loop that threads local variables as well, for example
    src/pieces/goban.rs:184-190 *)
Fixpoint mfold {S A B} (f : B -> A -> mut S B) (l : list A) (b : B) : mut S B :=
  match l with
  | [] => mret b
  | x :: t => do! b' := f b x in mfold f t b'
  end.

(** a [for] loop over [Group::iter], src/pieces/group.rs:245-262, with the fuel
    of [for_from] in Bitset.v *)
Fixpoint mfor_from {S} (fuel : nat) (dbg : bool) (next : list nat) (origin cur : nat)
    (f : nat -> mut S unit) : mut S unit :=
  match fuel with
  | O => reads (fun _ => Diverge)
  | Datatypes.S k =>
      do! nx := reads (fun _ => vget next cur) in
      if (nx =? origin)%nat then f cur
      else if dbg && (nx =? cur)%nat then reads (fun _ => Panic)
      else do! _ := f cur in mfor_from k dbg next origin nx f
  end.
(** a [for] loop over [Group::iter], src/pieces/group.rs:170-177 and 245-262 *)
Definition mgroup_for {S} (dbg : bool) (grp : group) (next : list nat)
    (f : nat -> mut S unit) : mut S unit :=
  mfor_from (2 * Datatypes.S (length next)) dbg next (g_origin grp) (g_origin grp) f.

(** an assignment to a field of the group [self.chains[k]], for example
    src/pieces/goban.rs:186 and 520-524 *)
Definition put_chain (k : nat) (f : group -> res group) : mut goban unit :=
  writes (fun g => let! grp := chain_at (chains g) k in
                   let! grp' := f grp in
                   let! cs := chain_put (chains g) k grp' in
                   Ok (with_chains g cs)).

(** [self.next_stone[i] = x], src/pieces/goban.rs:506, 517-518, 521-522 *)
Definition put_next (i x : nat) : mut goban unit :=
  writes (fun g => let! nx := vset (next_stone g) i x in Ok (with_next g nx)).

(** [self.board[p] = cell], src/pieces/goban.rs:202, 467, 482; the right-hand
    side is computed first *)
Definition put_cell (p : nat) (cell : res (option nat)) : mut goban unit :=
  writes (fun g => let! c := cell in
                   let! b := vset (board g) p c in
                   Ok (with_board g b)).

(** [self.zobrist_hash ^= index_zobrist(p, c)], src/pieces/goban.rs:221, 466 *)
Definition put_hash (p : nat) (c : color) : mut goban unit :=
  writes (fun g => let! z := index_zobrist p c in
                   Ok (with_hash g (N.lxor (zobrist_hash g) z))).

(** [self.chains.remove(k)], src/pieces/goban.rs:469, 577 *)
Definition drop_chain (k : nat) : mut goban unit :=
  writes (fun g => let! cs := chains_remove (chains g) k in Ok (with_chains g cs)).

(** the debug assertion of src/pieces/goban.rs:474-480 and 525-528 *)
Definition last_is_last (dbg : bool) (k : nat) : mut goban unit :=
  reads (fun g => debug_assert dbg
    (let! grp := chain_at (chains g) k in
     let! l := group_iter dbg grp (next_stone g) in
     let! x := unwrap (last l) in
     Ok (x =? g_last grp)%nat)).

(** src/pieces/goban.rs:473-484 [update_chain_indexes_in_board] *)
Definition u_update_chain_indexes (dbg : bool) (k : nat) : mut goban unit :=
  do! _ := last_is_last dbg k in
  do! grp := reads (fun g => chain_at (chains g) k) in
  do! next := reads (fun g => Ok (next_stone g)) in
  mgroup_for dbg grp next (fun p => put_cell p (let! k' := nonmax_u16 k in Ok (Some k'))).

(** src/pieces/goban.rs:500-510 [create_chain] *)
Definition u_create_chain (dbg : bool) (origin : nat) (c : color) (libs : list nat)
  : mut goban nat :=
  do! bits := reads (fun _ => foldM (fun l i => lib_set true i l) libs EMPTY_LIBERTIES) in
  do! _ := put_next origin origin in
  do! k := reads (fun g => Ok (length (chains g))) in
  do! _ := writes (fun g =>
             Ok (with_chains g (fst (put_free_spot (chains g) (new_with_liberties c origin bits))))) in
  do! _ := u_update_chain_indexes dbg k in
  mret k.

(** src/pieces/goban.rs:512-529 [add_stone_to_chain] *)
Definition u_add_stone_to_chain (dbg : bool) (k stone : nat) : mut goban unit :=
  do! grp := reads (fun g => chain_at (chains g) k) in
  do! _ :=
    (if (stone <? g_origin grp)%nat then
       do! _ := put_next stone (g_origin grp) in
       do! _ := put_next (g_last grp) stone in
       put_chain k (fun x => Ok (mkGroup (g_color x) stone (g_last x) (g_liberties x) (g_num_stones x)))
     else
       do! _ := put_next (g_last grp) stone in
       do! _ := put_next stone (g_origin grp) in
       put_chain k (fun x => Ok (mkGroup (g_color x) (g_origin x) stone (g_liberties x) (g_num_stones x)))) in
  do! _ := put_chain k (fun x =>
             let! num := u16_add dbg (g_num_stones x) 1 in
             Ok (mkGroup (g_color x) (g_origin x) (g_last x) (g_liberties x) num)) in
  last_is_last dbg k.

(** src/pieces/goban.rs:531-578 [merge_strings] *)
Definition u_merge_strings (dbg : bool) (k1 k2 : nat) : mut goban unit :=
  do! c1 := reads (fun g => chain_at (chains g) k1) in
  do! c2 := reads (fun g => chain_at (chains g) k2) in
  do! _ := reads (fun _ => assert_ (color_eqb (g_color c1) (g_color c2))) in
  do! _ := reads (fun _ => assert_ (negb (k1 =? k2)%nat)) in
  do! _ := put_chain k1 (fun x => Ok (with_liberties x (lib_merge (g_liberties x) (g_liberties c2)))) in
  do! _ := put_chain k1 (fun x =>
             Ok (if (g_origin c2 <? g_origin c1)%nat
                 then mkGroup (g_color x) (g_origin c2) (g_last x) (g_liberties x) (g_num_stones x)
                 else mkGroup (g_color x) (g_origin x) (g_last c2) (g_liberties x) (g_num_stones x))) in
  do! _ := writes (fun g => let! nx := vswap (next_stone g) (g_last c1) (g_last c2) in
                            Ok (with_next g nx)) in
  do! _ := put_chain k1 (fun x =>
             let! num := u16_add dbg (g_num_stones x) (g_num_stones c2) in
             Ok (mkGroup (g_color x) (g_origin x) (g_last x) (g_liberties x) num)) in
  do! _ := u_update_chain_indexes dbg k1 in
  drop_chain k2.

(** src/pieces/goban.rs:182-190 *)
Definition u_remove_liberties (dbg : bool) (oppo : list nat) (p : nat) : mut goban (list nat) :=
  mfold (fun dead k =>
           do! _ := put_chain k (fun x => remove_liberty dbg x p) in
           do! x := reads (fun g => chain_at (chains g) k) in
           if is_dead x then reads (fun _ => av_push 4 dead k) else mret dead) oppo [].

(** src/pieces/goban.rs:207-216 *)
Definition u_merge_all (dbg : bool) (t : nat) (same : list nat) : mut goban nat :=
  mfold (fun t a =>
           do! ga := reads (fun g => chain_at (chains g) a) in
           do! gt := reads (fun g => chain_at (chains g) t) in
           if (number_of_liberties ga <? number_of_liberties gt)%nat
           then do! _ := u_merge_strings dbg t a in mret t
           else do! _ := u_merge_strings dbg a t in mret a) same t.

(** src/pieces/goban.rs:192-220 *)
Definition u_place_stone (dbg : bool) (p : nat) (c : color) (same libs : list nat)
  : mut goban nat :=
  match same with
  | [] => u_create_chain dbg p c libs
  | [only] =>
      do! _ := put_chain only (fun x => remove_liberty dbg x p) in
      do! _ := meach (fun i => put_chain only (fun x => add_liberty_unchecked x i)) libs in
      do! _ := u_add_stone_to_chain dbg only p in
      do! _ := put_cell p (let! k := nonmax_u16 only in Ok (Some k)) in
      mret only
  | _ =>
      do! t := u_create_chain dbg p c libs in
      do! t := u_merge_all dbg t same in
      do! _ := put_chain t (fun x => remove_liberty dbg x p) in
      mret t
  end.

(** src/pieces/goban.rs:152-225 [push_wth_feedback] *)
Definition u_push_wth_feedback (dbg : bool) (pt : coord) (c : color) : mut goban (list nat * nat) :=
  do! p := reads (fun g => Ok (two_to_1dim (gsize g) pt)) in
  do! nbs := reads (fun g => neighbors_idx dbg (gsize g) p) in
  do! '(same, oppo, libs) := reads (fun g => classify g c nbs) in
  do! dead := u_remove_liberties dbg oppo p in
  do! u := u_place_stone dbg p c same libs in
  do! _ := put_hash p c in
  do! _ := reads (fun g => if dbg then check_integrity_all dbg g else Ok tt) in
  mret (dead, u).

(** src/pieces/goban.rs:455-470 [remove_chain] *)
Definition u_remove_chain (dbg : bool) (k : nat) : mut goban unit :=
  do! chain := reads (fun g => chain_at (chains g) k) in
  do! next := reads (fun g => Ok (next_stone g)) in
  do! _ := mgroup_for dbg chain next (fun p =>
             do! nbs := reads (fun g => get_connected_groups_idx dbg g p) in
             do! _ := meach (fun n => put_chain n (fun x => add_liberty dbg x p))
                            (List.filter (fun x => negb (x =? k)%nat) nbs) in
             do! _ := put_hash p (g_color chain) in
             put_cell p (Ok None)) in
  drop_chain k.

(** src/pieces/goban.rs:241-248 and 254-261: the stones of a captured group are
    added to the prisoners of the other side *)
Definition credit (x : group) (removed : N * N) : N * N :=
  let num := N.of_nat (g_num_stones x) in
  match g_color x with
  | White => (fst removed + num, snd removed)%N
  | Black => (fst removed, snd removed + num)%N
  end.

(** src/pieces/goban.rs:227-267 [remove_captured_stones_aux] *)
Definition u_remove_captured_stones_aux (dbg suicide_allowed : bool) (dead_rens : list nat)
    (added_chain : nat) : mut goban ((N * N) * option coord) :=
  let only_one := (length dead_rens =? 1)%nat in
  do! '(removed, ko) :=
    mfold (fun '(removed, ko) d =>
             do! dead := reads (fun g => chain_at (chains g) d) in
             do! ko' := reads (fun g =>
               if (g_num_stones dead =? 1)%nat && only_one
               then let! q := one_to_2dim (gsize g) (g_origin dead) in Ok (Some q)
               else Ok ko) in
             do! _ := u_remove_chain dbg d in
             mret (credit dead removed, ko')) dead_rens ((0%N, 0%N), None) in
  do! mine := reads (fun g => chain_at (chains g) added_chain) in
  if suicide_allowed && is_dead mine then
    do! _ := u_remove_chain dbg added_chain in
    mret (credit mine removed, None)
  else mret (removed, ko).

(** src/pieces/goban.rs:275-288 [push] *)
Definition u_push (dbg : bool) (pt : coord) (c : color) : mut goban unit :=
  do! _ := reads (fun g => debug_assert dbg (Ok (fst pt <? fst (gsize g))%nat)) in
  do! _ := reads (fun g => debug_assert dbg (Ok (snd pt <? snd (gsize g))%nat)) in
  do! _ := u_push_wth_feedback dbg pt c in
  mret tt.

(** src/pieces/goban.rs:298-302 [push_many] *)
Definition u_push_many (dbg : bool) (pts : list coord) (c : color) : mut goban unit :=
  meach (fun p => u_push dbg p c) pts.

(** assignments to the fields of src/rules/game.rs:18-29 *)
Definition with_goban (g : game) (x : goban) : game :=
  mkGame x (gm_passes g) (gm_prisoners g) (gm_outcome g) (gm_turn g) (gm_rule g)
         (gm_handicap g) (gm_history g) (gm_ko_point g).
(** assignment to [passes], src/rules/game.rs:179, 190 *)
Definition with_passes (g : game) (x : nat) : game :=
  mkGame (gm_goban g) x (gm_prisoners g) (gm_outcome g) (gm_turn g) (gm_rule g)
         (gm_handicap g) (gm_history g) (gm_ko_point g).
(** assignment to [prisoners], src/rules/game.rs:459-460 *)
Definition with_prisoners (g : game) (x : N * N) : game :=
  mkGame (gm_goban g) (gm_passes g) x (gm_outcome g) (gm_turn g) (gm_rule g)
         (gm_handicap g) (gm_history g) (gm_ko_point g).
(** assignment to [outcome], src/rules/game.rs:194 *)
Definition with_outcome (g : game) (x : option endgame) : game :=
  mkGame (gm_goban g) (gm_passes g) (gm_prisoners g) x (gm_turn g) (gm_rule g)
         (gm_handicap g) (gm_history g) (gm_ko_point g).
(** assignment to [turn], src/rules/game.rs:177, 189, 247 *)
Definition with_turn (g : game) (x : color) : game :=
  mkGame (gm_goban g) (gm_passes g) (gm_prisoners g) (gm_outcome g) x (gm_rule g)
         (gm_handicap g) (gm_history g) (gm_ko_point g).
(** assignment to [handicap], src/rules/game.rs:243 *)
Definition with_handicap (g : game) (x : N) : game :=
  mkGame (gm_goban g) (gm_passes g) (gm_prisoners g) (gm_outcome g) (gm_turn g) (gm_rule g)
         x (gm_history g) (gm_ko_point g).
(** insertion into [history], src/rules/game.rs:184 *)
Definition with_history (g : game) (x : list goban) : game :=
  mkGame (gm_goban g) (gm_passes g) (gm_prisoners g) (gm_outcome g) (gm_turn g) (gm_rule g)
         (gm_handicap g) x (gm_ko_point g).
(** assignment to [ko_point], src/rules/game.rs:178, 186, 461 *)
Definition with_ko (g : game) (x : option coord) : game :=
  mkGame (gm_goban g) (gm_passes g) (gm_prisoners g) (gm_outcome g) (gm_turn g) (gm_rule g)
         (gm_handicap g) (gm_history g) x.

(** a call on the field [goban] of a game, src/rules/game.rs:185, 244-246, 454 *)
Definition on_goban {A} (m : mut goban A) : mut game A :=
  fun g => let (gb, r) := m (gm_goban g) in (with_goban g gb, r).

(** src/rules/game.rs:453-462 [remove_captured_stones] *)
Definition u_remove_captured_stones (dbg : bool) (dead : list nat) (added : nat) : mut game unit :=
  do! suicide := reads (fun g => Ok (negb (flag_contains (flag_illegal (gm_rule g)) SUICIDE))) in
  do! '((pb, pw), ko) := on_goban (u_remove_captured_stones_aux dbg suicide dead added) in
  do! _ := writes (fun g => let! b := u32_add dbg (fst (gm_prisoners g)) pb in
                            Ok (with_prisoners g (b, snd (gm_prisoners g)))) in
  do! _ := writes (fun g => let! w := u32_add dbg (snd (gm_prisoners g)) pw in
                            Ok (with_prisoners g (fst (gm_prisoners g), w))) in
  writes (fun g => Ok (with_ko g ko)).

(** src/rules/game.rs:173-198 [play] *)
Definition u_play (dbg : bool) (m : move) : mut game unit :=
  match m with
  | MPass =>
      do! _ := reads (fun g => assert_ (gm_passes g <? 2)%nat) in
      do! _ := writes (fun g => Ok (with_turn g (opp (gm_turn g)))) in
      do! _ := writes (fun g => Ok (with_ko g None)) in
      writes (fun g => Ok (with_passes g (S (gm_passes g))))
  | MPlay x y =>
      do! _ := writes (fun g => let! h := history_insert (gm_history g) (gm_goban g) in
                                Ok (with_history g h)) in
      do! c := reads (fun g => Ok (gm_turn g)) in
      do! '(dead, added) := on_goban (u_push_wth_feedback dbg (x, y) c) in
      do! _ := writes (fun g => Ok (with_ko g None)) in
      do! _ := u_remove_captured_stones dbg dead added in
      do! _ := writes (fun g => Ok (with_turn g (opp (gm_turn g)))) in
      writes (fun g => Ok (with_passes g 0))
  | MResign player => writes (fun g => Ok (with_outcome g (Some (WinnerByResign player))))
  end.

(** src/rules/game.rs:221-238 [try_play] *)
Definition u_try_play (dbg : bool) (m : move) : mut game verdict :=
  do! paused := reads (fun g => Ok (gm_passes g =? 2)%nat) in
  if (paused : bool) then mret (Refused EGamePaused)
  else
    match m with
    | MPlay x y =>
        do! c := reads (fun g => get_color (gm_goban g) (x, y)) in
        if negb (mcolor_eqb c None) then mret (Refused EPointNotEmpty)
        else
          do! e := reads (fun g => check_point dbg g (x, y)) in
          match e with
          | Some e => mret (Refused e)
          | None => do! _ := u_play dbg m in mret Accepted
          end
    | MPass | MResign _ => do! _ := u_play dbg m in mret Accepted
    end.

(** src/rules/game.rs:242-248 [put_handicap] *)
Definition u_put_handicap (dbg : bool) (pts : list coord) : mut game unit :=
  do! _ := writes (fun g => Ok (with_handicap g (len_as_u32 pts))) in
  do! _ := meach (fun p => on_goban (u_push dbg p Black)) pts in
  writes (fun g => Ok (with_turn g White)).
