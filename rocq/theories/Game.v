(** Model of src/rules/mod.rs and src/rules/game.rs. *)
From Verif Require Export Territory.
From Coq Require Import String.
Local Notation length := Datatypes.length.

(** src/rules/mod.rs:15-21 [GobanSizes] *)
Inductive goban_sizes :=
| Nineteen | Nine | Thirteen
| Custom (height width : N).

(** src/rules/mod.rs:23-32; [height as u8] keeps the low eight bits *)
Definition size_of (s : goban_sizes) : size_t :=
  match s with
  | Nine => (9, 9)
  | Thirteen => (13, 13)
  | Nineteen => (19, 19)
  | Custom h w => (N.to_nat (h mod 256), N.to_nat (w mod 256))
  end%nat.

(** src/rules/mod.rs:34-43 [From<usize> for GobanSizes] *)
Definition sizes_of_usize (x : N) : res goban_sizes :=
  if (x =? 9)%N then Ok Nine
  else if (x =? 13)%N then Ok Thirteen
  else if (x =? 19)%N then Ok Nineteen
  else Panic.

(** src/rules/mod.rs:47-51 [Move] *)
Inductive move :=
| MPass
| MResign (c : color)
| MPlay (x y : nat).

(** src/rules/mod.rs:60-66 [EndGame] *)
Inductive endgame :=
| WinnerByScore (c : color) (points : f32)
| WinnerByResign (c : color)
| WinnerByTime (c : color)
| WinnerByForfeit (c : color)
| Draw.

(** src/rules/mod.rs:71-79 [EndGame::get_winner] *)
Definition endgame_winner (e : endgame) : option color :=
  match e with
  | WinnerByScore p _ | WinnerByResign p | WinnerByTime p | WinnerByForfeit p => Some p
  | Draw => None
  end.

(** src/rules/mod.rs:83-89 [PlayError] *)
Inductive play_error := EKo | ESuicide | EGamePaused | EFillEye | EPointNotEmpty.

(** src/rules/mod.rs:92-104 [IllegalRules] and 105-115 [ScoreRules]: bit masks *)
Definition KO : N := 1.
(** src/rules/mod.rs:98 *)
Definition SUPERKO : N := 2.
(** src/rules/mod.rs:100 *)
Definition SUICIDE : N := 4.
(** src/rules/mod.rs:102 *)
Definition FILLEYE : N := 8.
(** src/rules/mod.rs:109 *)
Definition STONES : N := 1.
(** src/rules/mod.rs:111 *)
Definition KOMI : N := 2.
(** src/rules/mod.rs:113 *)
Definition PRISONNERS : N := 4.

(** bitflags' [contains], on the flags of src/rules/mod.rs:92-115 *)
Definition flag_contains (flags f : N) : bool := (N.land flags f =? f)%N.

(** src/rules/mod.rs:118-122 [Rule] *)
Record rule := mkRule { r_komi : f32; flag_illegal : N; flag_score : N }.

(** src/rules/mod.rs:124-132 and 134-140; 6.5 = 13/2, 7.5 = 15/2 *)
Definition JAPANESE : rule := mkRule (f32_make 13 (-1)) (N.lor KO SUICIDE) (N.lor KOMI PRISONNERS).
(** src/rules/mod.rs:134-140; 7.5 = 15/2 *)
Definition CHINESE : rule :=
  mkRule (f32_make 15 (-1)) (N.lor (N.lor KO SUPERKO) SUICIDE) (N.lor KOMI STONES).

(** src/rules/mod.rs:142-152 [FromStr for Rule]; [None] is the error string *)
Definition rule_from_str (s : String.string) : option rule :=
  if String.eqb s "JAP"%string then Some JAPANESE
  else if String.eqb s "CHI"%string then Some CHINESE
  else None.

(** src/rules/game.rs:18-29 [struct Game].  [history] is an
    [IndexSet<Goban>]: an insertion-ordered list without [==] duplicates.
    [passes] and [handicap] are u32, [prisoners] a pair of u32. *)
Record game := mkGame {
  gm_goban : goban;
  gm_passes : nat;
  gm_prisoners : N * N;
  gm_outcome : option endgame;
  gm_turn : color;
  gm_rule : rule;
  gm_handicap : N;
  gm_history : list goban;
  gm_ko_point : option coord
}.

(** src/rules/game.rs:41-59 [Game::new] *)
Definition game_new (s : goban_sizes) (r : rule) : res game :=
  let! gb := goban_new (size_of s) in
  Ok (mkGame gb 0 (0%N, 0%N) None Black r 0%N [] None).

(** src/rules/game.rs:465-469 [Default for Game] *)
Definition game_default : res game := game_new Nineteen CHINESE.

(** src/rules/game.rs:65-67 *)
Definition resume (g : game) : game :=
  mkGame (gm_goban g) 0 (gm_prisoners g) (gm_outcome g) (gm_turn g) (gm_rule g)
         (gm_handicap g) (gm_history g) (gm_ko_point g).

(** src/rules/game.rs:70-72 *)
Definition set_komi (g : game) (k : f32) : game :=
  mkGame (gm_goban g) (gm_passes g) (gm_prisoners g) (gm_outcome g) (gm_turn g)
         (mkRule k (flag_illegal (gm_rule g)) (flag_score (gm_rule g)))
         (gm_handicap g) (gm_history g) (gm_ko_point g).

(** src/rules/game.rs:75-77 *)
Definition komi (g : game) : f32 := r_komi (gm_rule g).

(** src/rules/game.rs:103-109 *)
Definition is_over (g : game) : bool :=
  match gm_outcome g with
  | Some _ => true
  | None => (2 <=? gm_passes g)%nat
  end.

(** src/rules/game.rs:134-136 [pseudo_legals], collected *)
Definition pseudo_legals (g : game) : res (list coord) := get_empty_coords (gm_goban g).

(** src/rules/game.rs:139-151 [pseudo_legals_vec]; the capacity
    [(size.0 * size.1) as usize] is a u8 product (line 141) *)
Definition pseudo_legals_vec (dbg : bool) (g : game) : res (list coord) :=
  let (h, w) := gsize (gm_goban g) in
  let! _ := u8_mul dbg h w in
  filterM (fun p => let! cell := vget (board (gm_goban g)) (two_to_1dim (h, w) p) in
                    Ok (match cell with None => true | Some _ => false end))
          (list_prod (seq 0 h) (seq 0 w)).

(** [IndexSet::contains] and [IndexSet::insert] (src/rules/game.rs:184, 421):
    boards that are [==] have the same hash, so the bucket lookup finds an
    element iff one of the stored boards is [==]. *)
Definition history_contains (h : list goban) (x : goban) : res bool :=
  anyM (fun y => goban_eq x y) h.
(** [IndexSet::insert], src/rules/game.rs:184 *)
Definition history_insert (h : list goban) (x : goban) : res (list goban) :=
  let! b := history_contains h x in
  Ok (if b then h else h ++ [x]).

(** src/rules/game.rs:453-462 [remove_captured_stones], on the part of the game
    that it changes: board, prisoners and ko point *)
Definition game_remove_captured_stones (dbg : bool) (r : rule) (gb : goban)
    (prisoners : N * N) (dead : list nat) (added : nat)
  : res (goban * (N * N) * option coord) :=
  let! '(gb', (pb, pw), ko) :=
    remove_captured_stones_aux dbg gb (negb (flag_contains (flag_illegal r) SUICIDE)) dead added in
  let! b := u32_add dbg (fst prisoners) pb in
  let! w := u32_add dbg (snd prisoners) pw in
  Ok (gb', (b, w), ko).

(** src/rules/game.rs:173-198 [play] *)
Definition play (dbg : bool) (g : game) (m : move) : res game :=
  match m with
  | MPass =>
      let! _ := assert_ (gm_passes g <? 2)%nat in
      Ok (mkGame (gm_goban g) (S (gm_passes g)) (gm_prisoners g) (gm_outcome g)
                 (opp (gm_turn g)) (gm_rule g) (gm_handicap g) (gm_history g) None)
  | MPlay x y =>
      let! h := history_insert (gm_history g) (gm_goban g) in
      let! '(gb, dead, added) := push_wth_feedback dbg (gm_goban g) (x, y) (gm_turn g) in
      let! '(gb, pris, ko) :=
        game_remove_captured_stones dbg (gm_rule g) gb (gm_prisoners g) dead added in
      Ok (mkGame gb 0 pris (gm_outcome g) (opp (gm_turn g)) (gm_rule g)
                 (gm_handicap g) h ko)
  | MResign player =>
      Ok (mkGame (gm_goban g) (gm_passes g) (gm_prisoners g)
                 (Some (WinnerByResign player)) (gm_turn g) (gm_rule g)
                 (gm_handicap g) (gm_history g) (gm_ko_point g))
  end.

(** src/rules/game.rs:202-211 [play_for_verification]: the suicide flag is
    passed as written, without the negation of line 455 *)
Definition play_for_verification (dbg : bool) (g : game) (p : coord) : res goban :=
  let! '(gb, dead, added) := push_wth_feedback dbg (gm_goban g) p (gm_turn g) in
  let! '(gb, _, _) :=
    remove_captured_stones_aux dbg gb (flag_contains (flag_illegal (gm_rule g)) SUICIDE)
      dead added in
  Ok gb.

(** [points.len() as u32] (src/rules/game.rs:243, src/rules/game_builder.rs:102):
    the cast keeps the low 32 bits *)
Definition len_as_u32 {A} (l : list A) : N := (N.of_nat (length l) mod 4294967296)%N.

(** src/rules/game.rs:242-248 [put_handicap] *)
Definition put_handicap (dbg : bool) (g : game) (pts : list coord) : res game :=
  let! gb := foldM (fun gb p => push dbg gb p Black) pts (gm_goban g) in
  Ok (mkGame gb (gm_passes g) (gm_prisoners g) (gm_outcome g) White (gm_rule g)
             (len_as_u32 pts) (gm_history g) (gm_ko_point g)).

(** src/rules/game.rs:280-285 [will_capture] *)
Definition will_capture (dbg : bool) (g : game) (p : coord) : res bool :=
  let! l := get_connected_groups dbg (gm_goban g) p in
  Ok (existsb (fun s => negb (color_eqb (g_color s) (gm_turn g)) && is_atari s) l).

(** src/rules/game.rs:401-410 [check_ko] *)
Definition check_ko (dbg : bool) (g : game) (s : stone) : res bool :=
  if match gm_ko_point g with Some q => coord_eqb q (fst s) | None => false end then
    let! l := get_connected_groups dbg (gm_goban g) (fst s) in
    Ok (negb (existsb (fun n => is_atari n && (1 <? g_num_stones n)%nat) l))
  else Ok false.

(** src/rules/game.rs:413-423 [check_super_ko] *)
Definition check_super_ko (dbg : bool) (g : game) (s : stone) : res bool :=
  if (length (gm_history g) <=? 2)%nat then Ok false
  else
    let! wc := will_capture dbg g (fst s) in
    if negb wc then Ok false
    else
      let! to_check := play_for_verification dbg g (fst s) in
      let! is_it_ko := check_ko dbg g s in
      if is_it_ko then Ok true
      else history_contains (gm_history g) to_check.

(** src/rules/game.rs:427-445 [check_suicide] *)
Definition check_suicide (dbg : bool) (g : game) (s : stone) : res bool :=
  let! hl := has_liberties dbg (gm_goban g) (fst s) in
  if hl then Ok false
  else
    let! l := get_connected_groups dbg (gm_goban g) (fst s) in
    Ok (negb (existsb (fun n => if color_eqb (g_color n) (snd s)
                                then negb (is_atari n) else is_atari n) l)).

(** src/rules/game.rs:315-341 [helper_check_eye]: allied, off-board and empty
    corners *)
Definition helper_check_eye (dbg : bool) (g : game) (p : coord) (c : color)
  : res (list coord * list coord * list coord) :=
  let! l := corner_points dbg p in
  foldM (fun '(ally, off, emp) q =>
           if is_coord_valid (gsize (gm_goban g)) q then
             let! cc := get_color (gm_goban g) q in
             match cc with
             | None => let! emp' := av_push 4 emp q in Ok (ally, off, emp')
             | Some c' =>
                 if color_eqb c' c then let! ally' := av_push 4 ally q in Ok (ally', off, emp)
                 else Ok (ally, off, emp)
             end
           else let! off' := av_push 4 off q in Ok (ally, off', emp)) l ([], [], []).

(** src/rules/game.rs:379-393: the loop over the empty corners *)
Fixpoint check_eye_corners (dbg : bool) (g : game) (c : color) (l : list coord) : res bool :=
  match l with
  | [] => Ok false
  | q :: t =>
      let! st := get_connected_stones dbg (gm_goban g) q in
      if existsb (fun s : stone => negb (color_eqb (snd s) c)) st then Ok false
      else
        let! '(ca, cof, _) := helper_check_eye dbg g q c in
        let n := (length ca + length cof)%nat in
        if (n =? 3)%nat || (n =? 2)%nat then Ok true
        else check_eye_corners dbg g c t
  end.

(** src/rules/game.rs:354-396 [check_eye] *)
Definition check_eye (dbg : bool) (g : game) (s : stone) : res bool :=
  let (p, c) := s in
  let! pc := get_color (gm_goban g) p in
  match pc with
  | Some _ => Ok false
  | None =>
      let! nbs := neighbors_coords dbg (gm_goban g) p in
      let! bad := anyM (fun q => let! cq := get_color (gm_goban g) q in
                                 Ok (negb (mcolor_eqb cq (Some c)))) nbs in
      if bad then Ok false
      else
        let! '(ally, off, emp) := helper_check_eye dbg g p c in
        let total := (length ally + length off)%nat in
        if (total =? 4)%nat then Ok true
        else if (total =? 3)%nat || (total =? 2)%nat then check_eye_corners dbg g c emp
        else Ok false
  end.

(** src/rules/game.rs:294-312 [check_point_by] *)
Definition check_point_by (dbg : bool) (g : game) (p : coord) (flags : N)
  : res (option play_error) :=
  let s := (p, gm_turn g) in
  let! c := get_color (gm_goban g) p in
  match c with
  | Some _ => Ok (Some EPointNotEmpty)
  | None =>
      let! b1 := (if flag_contains flags SUICIDE then check_suicide dbg g s else Ok false) in
      if b1 then Ok (Some ESuicide)
      else
        let! b2 := (if flag_contains flags KO then check_ko dbg g s else Ok false) in
        if b2 then Ok (Some EKo)
        else
          let! b3 := (if flag_contains flags FILLEYE then check_eye dbg g s else Ok false) in
          if b3 then Ok (Some EFillEye)
          else
            let! b4 := (if flag_contains flags SUPERKO then check_super_ko dbg g s else Ok false) in
            if b4 then Ok (Some EKo) else Ok None
  end.

(** src/rules/game.rs:289-291 [check_point] *)
Definition check_point (dbg : bool) (g : game) (p : coord) : res (option play_error) :=
  check_point_by dbg g p (flag_illegal (gm_rule g)).

(** src/rules/game.rs:162-165 [legals_by] and 155-157 [legals], collected *)
Definition legals_by (dbg : bool) (g : game) (flags : N) : res (list coord) :=
  let! l := pseudo_legals g in
  filterM (fun p => let! e := check_point_by dbg g p flags in
                    Ok (match e with None => true | Some _ => false end)) l.
(** src/rules/game.rs:155-157 [legals], collected *)
Definition legals (dbg : bool) (g : game) : res (list coord) :=
  legals_by dbg g (flag_illegal (gm_rule g)).

(** Result of [try_play] (src/rules/game.rs:221): [Ok(&mut Self)] or
    [Err(PlayError)]. *)
Inductive verdict := Accepted | Refused (e : play_error).

(** src/rules/game.rs:221-238 [try_play]: the game afterwards and the verdict *)
Definition try_play (dbg : bool) (g : game) (m : move) : res (game * verdict) :=
  if (gm_passes g =? 2)%nat then Ok (g, Refused EGamePaused)
  else
    match m with
    | MPlay x y =>
        let! c := get_color (gm_goban g) (x, y) in
        if negb (mcolor_eqb c None) then Ok (g, Refused EPointNotEmpty)
        else
          let! e := check_point dbg g (x, y) in
          match e with
          | Some e => Ok (g, Refused e)
          | None => let! g' := play dbg g m in Ok (g', Accepted)
          end
    | MPass | MResign _ => let! g' := play dbg g m in Ok (g', Accepted)
    end.

Section Score.
  Variable order : list point -> list point.
  Variable dbg : bool.

  (** src/rules/game.rs:258-276 [calculate_score_by]: (black, white) *)
  Definition calculate_score_by (g : game) (flags : N) : res (f32 * f32) :=
    let! '(bt, wt) := calculate_territories order dbg (gm_goban g) in
    let black := f32_of_N (N.of_nat bt) in
    let white := f32_of_N (N.of_nat wt) in
    let '(black, white) :=
      if flag_contains flags PRISONNERS then
        (f32_add black (f32_of_N (fst (gm_prisoners g))),
         f32_add white (f32_of_N (snd (gm_prisoners g))))
      else (black, white) in
    let '(black, white) :=
      if flag_contains flags STONES then
        let '(bs, ws) := number_of_stones (gm_goban g) in
        (f32_add black (f32_of_N (N.of_nat bs)), f32_add white (f32_of_N (N.of_nat ws)))
      else (black, white) in
    let white := if flag_contains flags KOMI then f32_add white (komi g) else white in
    Ok (black, white).

  (** src/rules/game.rs:253-255 [calculate_score] *)
  Definition calculate_score (g : game) : res (f32 * f32) :=
    calculate_score_by g (flag_score (gm_rule g)).

  (** src/rules/game.rs:114-130 [outcome] *)
  Definition outcome (g : game) : res (option endgame) :=
    if negb (is_over g) then Ok None
    else
      match gm_outcome g with
      | Some o => Ok (Some o)
      | None =>
          let! '(b, w) := calculate_score g in
          if f32_lt (f32_abs (f32_sub b w)) f32_EPSILON then Ok (Some Draw)
          else if f32_lt w b then Ok (Some (WinnerByScore Black (f32_sub b w)))
          else Ok (Some (WinnerByScore White (f32_sub w b)))
      end.
End Score.
