(** The project's own tests (tests/general_tests.rs, sgf/ and the unit test of
    src/pieces/group.rs), replayed on the model in both build profiles.  They are
    no part of the properties: they check that the model computes what the
    project's authors expect of the code.  SGF texts are written here as the
    tokens that the external parser delivers.  Left out: [sizes] (memory layout),
    [goban] (prints only), [some_plays] (random), [dead_stones] (ignored test). *)
From Verif Require Import Sgf GroupMore.
From Coq Require Import String.
Local Notation length := Datatypes.length.

Definition is_ok {A} (m : res A) (f : A -> bool) : bool :=
  match m with Ok a => f a | _ => false end.
Definition f32_eqb (a b : f32) : bool :=
  match SFcompare a b with Some Eq => true | _ => false end.
Definition endgame_eqb (a b : endgame) : bool :=
  match a, b with
  | WinnerByScore c p, WinnerByScore c' p' => color_eqb c c' && f32_eqb p p'
  | WinnerByResign c, WinnerByResign c' => color_eqb c c'
  | Draw, Draw => true
  | _, _ => false
  end.
Definition pair_eqb (a b : N * N) : bool := (fst a =? fst b)%N && (snd a =? snd b)%N.
(** [for m in moves { g.play(m) }] and the same with [try_play(m).unwrap()] *)
Definition plays (dbg : bool) (g : game) (ms : list move) : res game :=
  foldM (fun g m => play dbg g m) ms g.
Definition try_plays (dbg : bool) (g : game) (ms : list move) : res game :=
  foldM (fun g m => let! '(g', v) := try_play dbg g m in
                    match v with Accepted => Ok g' | Refused _ => Panic end) ms g.
Definition started (s : goban_sizes) (r : rule) (dbg : bool) (ms : list move) : res game :=
  let! g := game_new s r in plays dbg g ms.
Definition refused_with (dbg : bool) (g : game) (m : move) (f : play_error -> bool) : bool :=
  is_ok (try_play dbg g m) (fun x => match snd x with Refused e => f e | Accepted => false end).
Definition accepted (dbg : bool) (g : game) (m : move) : bool :=
  is_ok (try_play dbg g m) (fun x => match snd x with Refused _ => false | Accepted => true end).
Definition in_both (t : bool -> bool) : bool := t true && t false.
Definition by_rows (l : list point) : list point := l.

(** tests/general_tests.rs:32-39 [goban_new_array] *)
Example goban_new_array : in_both (fun dbg =>
  is_ok (let! g := goban_new (19, 19)%nat in
         let! g := push dbg g (1, 2)%nat White in
         let! g := push dbg g (1, 3)%nat Black in
         let! tab := to_vec g in
         let! g2 := goban_from dbg tab in
         goban_eq g g2) (fun b => b)) = true.
Proof. vm_compute. reflexivity. Qed.

(** tests/general_tests.rs:42-49 [passes] *)
Example passes : in_both (fun dbg =>
  is_ok (let! g := started Nine CHINESE dbg [MPlay 3 3; MPass; MPlay 4 3] in
         get_color (gm_goban g) (4, 3)%nat) (mcolor_eqb (Some Black))) = true.
Proof. vm_compute. reflexivity. Qed.

(** tests/general_tests.rs:52-69 [get_all_stones] *)
Example get_all_stones : in_both (fun dbg =>
  is_ok (let! g := goban_new (19, 19)%nat in
         let! g := push dbg g (1, 2)%nat White in
         let! g := push dbg g (0, 0)%nat Black in
         get_stones g)
    (fun l => match l with
              | [s1; s2] => coord_eqb (fst s1) (0, 0)%nat && color_eqb (snd s1) Black
                            && coord_eqb (fst s2) (1, 2)%nat && color_eqb (snd s2) White
              | _ => false
              end)) = true.
Proof. vm_compute. reflexivity. Qed.

(** sgf/ShusakuvsInseki.sgf *)
Definition shusaku : list sgf_node := [
  [TSize 19 19; THandicap 0; TOther; TOther; TOther; TKomi (f32_make 0 (-1)); TResult (SWinnerByPoints Black (f32_make 4 (-1))); TOther; TOther; TOther];
  [TMove Black (SMove 17 4)]; [TMove White (SMove 4 3)]; [TMove Black (SMove 16 17)];
  [TMove White (SMove 15 3)]; [TMove Black (SMove 3 16)]; [TMove White (SMove 3 6)];
  [TMove Black (SMove 5 16)]; [TMove White (SMove 17 15)]; [TMove Black (SMove 16 5)];
  [TMove White (SMove 14 16)]; [TMove Black (SMove 16 15)]; [TMove White (SMove 16 16)];
  [TMove Black (SMove 15 16)]; [TMove White (SMove 17 16)]; [TMove Black (SMove 15 17)];
  [TMove White (SMove 15 15)]; [TMove Black (SMove 16 14)]; [TMove White (SMove 17 17)];
  [TMove Black (SMove 14 17)]; [TMove White (SMove 15 14)]; [TMove Black (SMove 16 13)];
  [TMove White (SMove 15 13)]; [TMove Black (SMove 16 12)]; [TMove White (SMove 13 16)];
  [TMove Black (SMove 13 17)]; [TMove White (SMove 15 12)]; [TMove Black (SMove 16 11)];
  [TMove White (SMove 12 17)]; [TMove Black (SMove 12 18)]; [TMove White (SMove 11 18)];
  [TMove Black (SMove 12 16)]; [TMove White (SMove 11 17)]; [TMove Black (SMove 17 18)];
  [TMove White (SMove 18 18)]; [TMove Black (SMove 18 19)]; [TMove White (SMove 13 18)];
  [TMove Black (SMove 14 18)]; [TMove White (SMove 16 18)]; [TMove Black (SMove 16 19)];
  [TMove White (SMove 17 19)]; [TMove Black (SMove 14 15)]; [TMove White (SMove 13 15)];
  [TMove Black (SMove 17 18)]; [TMove White (SMove 18 13)]; [TMove Black (SMove 18 12)];
  [TMove White (SMove 17 19)]; [TMove Black (SMove 12 15)]; [TMove White (SMove 13 14)];
  [TMove Black (SMove 17 18)]; [TMove White (SMove 17 13)]; [TMove Black (SMove 15 18)];
  [TMove White (SMove 17 12)]; [TMove Black (SMove 17 10)]; [TMove White (SMove 18 10)];
  [TMove Black (SMove 18 9)]; [TMove White (SMove 18 11)]; [TMove Black (SMove 12 14)];
  [TMove White (SMove 13 13)]; [TMove Black (SMove 17 9)]; [TMove White (SMove 18 17)];
  [TMove Black (SMove 10 14)]; [TMove White (SMove 12 19)]; [TMove Black (SMove 14 19)];
  [TMove White (SMove 7 17)]; [TMove Black (SMove 7 15)]; [TMove White (SMove 3 11)];
  [TMove Black (SMove 11 3)]; [TMove White (SMove 9 3)]; [TMove Black (SMove 16 3)];
  [TMove White (SMove 14 10)]; [TMove Black (SMove 11 5)]; [TMove White (SMove 15 7)];
  [TMove Black (SMove 15 8)]; [TMove White (SMove 16 2)]; [TMove Black (SMove 17 2)];
  [TMove White (SMove 14 7)]; [TMove Black (SMove 13 9)]; [TMove White (SMove 13 10)];
  [TMove Black (SMove 14 4)]; [TMove White (SMove 16 8)]; [TMove Black (SMove 17 7)];
  [TMove White (SMove 16 7)]; [TMove Black (SMove 8 17)]; [TMove White (SMove 8 18)];
  [TMove Black (SMove 9 18)]; [TMove White (SMove 9 17)]; [TMove Black (SMove 8 16)];
  [TMove White (SMove 10 18)]; [TMove Black (SMove 6 3)]; [TMove White (SMove 12 3)];
  [TMove Black (SMove 12 4)]; [TMove White (SMove 13 3)]; [TMove Black (SMove 12 2)];
  [TMove White (SMove 13 2)]; [TMove Black (SMove 13 4)]; [TMove White (SMove 17 6)];
  [TMove Black (SMove 16 6)]; [TMove White (SMove 17 8)]; [TMove Black (SMove 18 7)];
  [TMove White (SMove 18 8)]; [TMove Black (SMove 19 8)]; [TMove White (SMove 18 6)];
  [TMove Black (SMove 19 7)]; [TMove White (SMove 16 10)]; [TMove Black (SMove 16 9)];
  [TMove White (SMove 15 9)]; [TMove Black (SMove 15 10)]; [TMove White (SMove 14 9)];
  [TMove Black (SMove 17 11)]; [TMove White (SMove 15 11)]; [TMove Black (SMove 17 5)];
  [TMove White (SMove 11 2)]; [TMove Black (SMove 10 2)]; [TMove White (SMove 11 1)];
  [TMove Black (SMove 10 3)]; [TMove White (SMove 15 2)]; [TMove Black (SMove 10 1)];
  [TMove White (SMove 12 1)]; [TMove Black (SMove 4 2)]; [TMove White (SMove 3 3)];
  [TMove Black (SMove 6 5)]; [TMove White (SMove 3 14)]; [TMove Black (SMove 7 18)];
  [TMove White (SMove 9 19)]; [TMove Black (SMove 6 17)]; [TMove White (SMove 9 15)];
  [TMove Black (SMove 10 9); TOther]; [TMove White (SMove 5 2)]; [TMove Black (SMove 6 2)];
  [TMove White (SMove 5 7)]; [TMove Black (SMove 4 10)]; [TMove White (SMove 4 11)];
  [TMove Black (SMove 5 10)]; [TMove White (SMove 3 10)]; [TMove Black (SMove 4 8)];
  [TMove White (SMove 9 10)]; [TMove Black (SMove 8 13)]; [TMove White (SMove 7 10)];
  [TMove Black (SMove 5 8)]; [TMove White (SMove 6 12)]; [TMove Black (SMove 6 7)];
  [TMove White (SMove 5 18)]; [TMove Black (SMove 4 13)]; [TMove White (SMove 6 14)];
  [TMove Black (SMove 4 14)]; [TMove White (SMove 7 14)]; [TMove Black (SMove 10 10)];
  [TMove White (SMove 10 11)]; [TMove Black (SMove 11 11)]; [TMove White (SMove 9 9)];
  [TMove Black (SMove 9 11)]; [TMove White (SMove 10 12)]; [TMove Black (SMove 11 12)];
  [TMove White (SMove 9 12)]; [TMove Black (SMove 10 8)]; [TMove White (SMove 3 15)];
  [TMove Black (SMove 4 15)]; [TMove White (SMove 9 8)]; [TMove Black (SMove 8 14)];
  [TMove White (SMove 8 12)]; [TMove Black (SMove 2 12)]; [TMove White (SMove 4 7)];
  [TMove Black (SMove 7 8)]; [TMove White (SMove 3 8)]; [TMove Black (SMove 9 7)];
  [TMove White (SMove 5 3)]; [TMove Black (SMove 3 18)]; [TMove White (SMove 6 4)];
  [TMove Black (SMove 7 4)]; [TMove White (SMove 5 4)]; [TMove Black (SMove 7 3)];
  [TMove White (SMove 2 11)]; [TMove Black (SMove 3 13)]; [TMove White (SMove 7 19)];
  [TMove Black (SMove 7 16)]; [TMove White (SMove 12 9)]; [TMove Black (SMove 11 7)];
  [TMove White (SMove 9 14)]; [TMove Black (SMove 12 10)]; [TMove White (SMove 12 7)];
  [TMove Black (SMove 7 13)]; [TMove White (SMove 10 6)]; [TMove Black (SMove 10 7)];
  [TMove White (SMove 9 13)]; [TMove Black (SMove 6 13)]; [TMove White (SMove 11 6)];
  [TMove Black (SMove 12 6)]; [TMove White (SMove 13 6)]; [TMove Black (SMove 12 5)];
  [TMove White (SMove 7 6)]; [TMove Black (SMove 8 6)]; [TMove White (SMove 6 6)];
  [TMove Black (SMove 7 7)]; [TMove White (SMove 12 11)]; [TMove Black (SMove 11 10)];
  [TMove White (SMove 11 13)]; [TMove Black (SMove 12 13)]; [TMove White (SMove 12 12)];
  [TMove Black (SMove 10 13)]; [TMove White (SMove 7 5)]; [TMove Black (SMove 8 5)];
  [TMove White (SMove 5 6)]; [TMove Black (SMove 5 1)]; [TMove White (SMove 3 2)];
  [TMove Black (SMove 6 18)]; [TMove White (SMove 6 19)]; [TMove Black (SMove 4 18)];
  [TMove White (SMove 17 1)]; [TMove Black (SMove 18 1)]; [TMove White (SMove 16 1)];
  [TMove Black (SMove 18 2)]; [TMove White (SMove 4 1)]; [TMove Black (SMove 7 9)];
  [TMove White (SMove 6 10)]; [TMove Black (SMove 6 9)]; [TMove White (SMove 6 1)];
  [TMove Black (SMove 7 1)]; [TMove White (SMove 7 12)]; [TMove Black (SMove 5 11)];
  [TMove White (SMove 5 13)]; [TMove Black (SMove 8 15)]; [TMove White (SMove 5 12)];
  [TMove Black (SMove 5 14)]; [TMove White (SMove 10 15)]; [TMove Black (SMove 11 14)];
  [TMove White (SMove 3 9)]; [TMove Black (SMove 12 8)]; [TMove White (SMove 13 8)];
  [TMove Black (SMove 13 7)]; [TMove White (SMove 4 9)]; [TMove Black (SMove 5 9)];
  [TMove White (SMove 12 7)]; [TMove Black (SMove 17 14)]; [TMove White (SMove 18 14)];
  [TMove Black (SMove 18 5)]; [TMove White (SMove 19 12)]; [TMove Black (SMove 13 7)];
  [TMove White (SMove 2 13)]; [TMove Black (SMove 1 13)]; [TMove White (SMove 12 7)];
  [TMove Black (SMove 5 17)]; [TMove White (SMove 5 19)]; [TMove Black (SMove 13 7)];
  [TMove White (SMove 8 1)]; [TMove Black (SMove 7 2)]; [TMove White (SMove 12 7)];
  [TMove Black (SMove 4 19)]; [TMove White (SMove 8 19)]; [TMove Black (SMove 13 7)];
  [TMove White (SMove 19 10)]; [TMove Black (SMove 19 9)]; [TMove White (SMove 12 7)];
  [TMove Black (SMove 19 18)]; [TMove White (SMove 19 17)]; [TMove Black (SMove 13 7)];
  [TMove White (SMove 8 4)]; [TMove Black (SMove 8 2)]; [TMove White (SMove 12 7)];
  [TMove Black (SMove 18 15)]; [TMove White (SMove 19 15)]; [TMove Black (SMove 13 7)];
  [TMove White (SMove 19 19)]; [TMove Black (SMove 17 19)]; [TMove White (SMove 12 7)];
  [TMove Black (SMove 19 14)]; [TMove White (SMove 18 16)]; [TMove Black (SMove 13 7)];
  [TMove White (SMove 3 12)]; [TMove Black (SMove 2 14)]; [TMove White (SMove 12 7)];
  [TMove Black (SMove 13 12)]; [TMove White (SMove 13 11)]; [TMove Black (SMove 13 7)];
  [TMove White (SMove 16 10)]; [TMove Black (SMove 19 6)]; [TMove White (SMove 12 7)];
  [TMove Black (SMove 14 14)]; [TMove White (SMove 14 12)]; [TMove Black (SMove 13 7)];
  [TMove White (SMove 9 2)]; [TMove Black (SMove 9 1)]; [TMove White (SMove 12 7)];
  [TMove Black (SMove 14 3)]; [TMove White (SMove 14 2)]; [TMove Black (SMove 13 7)];
  [TMove White (SMove 10 4)]; [TMove Black (SMove 11 4)]; [TMove White (SMove 12 7)];
  [TMove Black (SMove 13 1)]; [TMove White (SMove 14 1)]; [TMove Black (SMove 13 7)];
  [TMove White (SMove 17 3)]; [TMove Black (SMove 18 3)]; [TMove White (SMove 12 7)];
  [TMove Black (SMove 10 19)]; [TMove White (SMove 11 19)]; [TMove Black (SMove 13 7)];
  [TMove White (SMove 8 3)]; [TMove Black (SMove 9 4)]; [TMove White (SMove 12 7)];
  [TMove Black (SMove 6 11)]; [TMove White (SMove 8 10)]; [TMove Black (SMove 13 7)];
  [TMove White (SMove 8 8)]; [TMove Black (SMove 8 7)]; [TMove White (SMove 12 7)];
  [TMove Black (SMove 7 11)]; [TMove White (SMove 8 11)]; [TMove Black (SMove 13 7)];
  [TMove White (SMove 1 11)]; [TMove Black (SMove 12 7)]; [TMove White (SMove 1 12)];
  [TMove Black (SMove 2 13)]; [TMove White (SMove 14 6)]; [TMove Black (SMove 15 4)];
  [TMove White (SMove 11 9)]; [TMove Black (SMove 13 19)]; [TMove White (SMove 11 16)];
  [TMove Black (SMove 9 16)]; [TMove White (SMove 10 16)]; [TMove Black (SMove 12 18)];
  [TMove White (SMove 15 10)]; [TMove Black (SMove 13 18)]; [TMove White (SMove 5 1)];
  [TMove Black (SMove 19 18); TOther] ].

(** tests/general_tests.rs:89-112 [test_eye] *)
Example test_eye : in_both (fun dbg =>
  is_ok (from_sgf_nodes dbg shusaku)
    (fun g => is_ok (check_eye dbg g ((0, 14)%nat, White)) (fun b => b)
              && is_ok (check_eye dbg g ((0, 12)%nat, White)) (fun b => b)
              && is_ok (check_eye dbg g ((1, 11)%nat, White)) (fun b => b)
              && is_ok (check_eye dbg g ((1, 8)%nat, Black)) negb
              && is_ok (check_eye dbg g ((17, 18)%nat, Black)) negb)) = true.
Proof. vm_compute. reflexivity. Qed.

(** tests/general_tests.rs:115-466 [some_plays_from_sgf] *)
Definition moves_sgf : list move := [
  MPlay 16 13; MPlay 16 11; MPlay 14 12; MPlay 14 11; MPlay 13 11; MPlay 13 12;
  MPlay 14 13; MPlay 14 10; MPlay 12 12; MPlay 13 13; MPlay 14 14; MPlay 12 13;
  MPlay 14 15; MPlay 11 12; MPlay 12 11; MPlay 11 13; MPlay 12 9; MPlay 13 8; MPlay 13 9;
  MPlay 14 9; MPlay 14 8; MPlay 12 8; MPlay 11 11; MPlay 15 8; MPlay 14 7; MPlay 13 6;
  MPlay 15 7; MPlay 16 8; MPlay 16 7; MPlay 17 7; MPlay 17 6; MPlay 17 8; MPlay 14 5;
  MPlay 16 4; MPlay 12 6; MPlay 11 8; MPlay 13 5; MPlay 10 11; MPlay 10 10; MPlay 11 10;
  MPlay 13 2; MPlay 11 9; MPlay 16 2; MPlay 15 2; MPlay 15 1; MPlay 14 1; MPlay 16 1;
  MPlay 13 3; MPlay 12 3; MPlay 12 2; MPlay 13 1; MPlay 14 2; MPlay 13 4; MPlay 12 1;
  MPlay 13 0; MPlay 14 0; MPlay 14 3; MPlay 17 4; MPlay 17 5; MPlay 18 1; MPlay 2 13;
  MPlay 2 11; MPlay 4 12; MPlay 3 13; MPlay 3 12; MPlay 2 12; MPlay 3 14; MPlay 4 13;
  MPlay 4 14; MPlay 5 13; MPlay 2 14; MPlay 5 14; MPlay 4 15; MPlay 2 6; MPlay 5 15;
  MPlay 6 15; MPlay 6 16; MPlay 7 15; MPlay 7 16; MPlay 8 16; MPlay 6 14; MPlay 5 12;
  MPlay 3 10; MPlay 2 10; MPlay 4 10; MPlay 6 10; MPlay 5 11; MPlay 7 13; MPlay 6 11;
  MPlay 7 12; MPlay 7 11; MPlay 3 8; MPlay 7 14; MPlay 8 15; MPlay 8 14; MPlay 9 13;
  MPlay 9 12; MPlay 8 13; MPlay 10 14; MPlay 9 14; MPlay 10 12; MPlay 9 11; MPlay 8 11;
  MPlay 9 10; MPlay 10 13; MPlay 12 15; MPlay 12 14; MPlay 13 14; MPlay 13 15; MPlay 11 14;
  MPlay 11 15; MPlay 8 12; MPlay 12 14; MPlay 8 9; MPlay 4 8; MPlay 3 9; MPlay 4 9;
  MPlay 6 8; MPlay 4 6; MPlay 3 7; MPlay 4 7; MPlay 6 6; MPlay 2 5; MPlay 3 5; MPlay 3 6;
  MPlay 1 7; MPlay 7 9; MPlay 7 8; MPlay 1 6; MPlay 2 7; MPlay 5 5; MPlay 2 4; MPlay 6 5;
  MPlay 7 5; MPlay 6 9; MPlay 5 9; MPlay 7 10; MPlay 5 8; MPlay 7 4; MPlay 8 5; MPlay 5 2;
  MPlay 7 2; MPlay 7 3; MPlay 6 2; MPlay 6 3; MPlay 5 1; MPlay 4 2; MPlay 4 1; MPlay 3 2;
  MPlay 2 2; MPlay 3 1; MPlay 2 1; MPlay 8 2; MPlay 8 1; MPlay 9 4; MPlay 9 2; MPlay 9 9;
  MPlay 10 9; MPlay 9 8; MPlay 8 8; MPlay 8 10; MPlay 10 10; MPlay 10 7; MPlay 11 6;
  MPlay 10 6; MPlay 12 5; MPlay 11 5; MPlay 12 7; MPlay 11 4; MPlay 8 4; MPlay 15 4;
  MPlay 15 5; MPlay 14 6; MPlay 14 4; MPlay 13 3; MPlay 16 6; MPlay 15 4; MPlay 16 3;
  MPlay 16 5; MPlay 14 4; MPlay 15 6; MPlay 15 4; MPlay 17 2; MPlay 18 4; MPlay 18 5;
  MPlay 18 2; MPlay 18 3; MPlay 17 3; MPlay 15 0; MPlay 16 16; MPlay 17 15; MPlay 17 16;
  MPlay 16 15; MPlay 14 17; MPlay 13 17; MPlay 14 16; MPlay 15 16; MPlay 15 17;
  MPlay 17 17; MPlay 18 17; MPlay 17 18; MPlay 12 17; MPlay 13 16; MPlay 13 18;
  MPlay 11 17; MPlay 10 17; MPlay 11 18; MPlay 10 16; MPlay 11 16; MPlay 8 17; MPlay 5 10;
  MPlay 3 11; MPlay 4 0; MPlay 6 1; MPlay 17 12; MPlay 17 11; MPlay 4 5; MPlay 3 4;
  MPlay 8 7; MPlay 7 7; MPlay 7 18; MPlay 7 17; MPlay 6 17; MPlay 4 17; MPlay 5 17;
  MPlay 4 16; MPlay 5 16; MPlay 2 16; MPlay 1 16; MPlay 1 17; MPlay 1 15; MPlay 0 17;
  MPlay 2 15; MPlay 3 16; MPlay 3 18; MPlay 2 17; MPlay 4 18; MPlay 1 13; MPlay 1 18;
  MPlay 2 18; MPlay 5 18; MPlay 1 14; MPlay 0 16; MPlay 8 18; MPlay 3 17; MPlay 6 18;
  MPlay 0 18; MPlay 8 3; MPlay 4 3; MPlay 4 4; MPlay 5 4; MPlay 2 0; MPlay 3 0; MPlay 5 0;
  MPlay 5 3; MPlay 4 11; MPlay 8 6; MPlay 7 6; MPlay 9 5; MPlay 11 2; MPlay 12 0;
  MPlay 11 0; MPlay 10 1; MPlay 10 2; MPlay 11 1; MPlay 9 1; MPlay 10 0; MPlay 9 0;
  MPlay 11 0; MPlay 16 12; MPlay 17 13; MPlay 15 12; MPlay 18 11; MPlay 18 10; MPlay 18 12;
  MPlay 17 10; MPlay 0 14; MPlay 1 12; MPlay 10 18; MPlay 9 18; MPlay 18 7; MPlay 18 8;
  MPlay 15 13; MPlay 13 10; MPlay 12 10; MPlay 5 7; MPlay 11 3; MPlay 10 3; MPlay 10 4;
  MPlay 0 13; MPlay 6 12; MPlay 6 13; MPlay 18 3; MPlay 7 18; MPlay 18 6; MPlay 0 15;
  MPlay 1 5; MPlay 1 4; MPlay 0 14; MPlay 5 6; MPlay 0 15; MPlay 2 3; MPass; MPlay 15 14;
  MPass; MPlay 16 14; MPlay 17 14; MPlay 15 16; MPlay 18 15; MPlay 18 16; MPlay 14 18;
  MPlay 15 18; MPlay 12 18; MPlay 14 18; MPlay 16 17; MPlay 10 15; MPass; MPass ].
Definition inverted (m : move) : move :=
  match m with MPlay x y => MPlay (18 - x) y | _ => m end.
Example some_plays_from_sgf : in_both (fun dbg =>
  is_ok (let! g := game_new Nineteen CHINESE in
         let! g := put_handicap dbg g [(3, 3); (3, 15); (9, 3); (9, 15); (15, 3); (15, 15)]%nat in
         try_plays dbg g (List.map inverted moves_sgf))
    (fun g => is_over g && pair_eqb (gm_prisoners g) (16, 35)%N)) = true.
Proof. vm_compute. reflexivity. Qed.

(** tests/general_tests.rs:469-491 [atari] *)
Example atari : in_both (fun dbg =>
  is_ok (let! g := goban_new (9, 9)%nat in
         let! g := push_stone dbg g ((4, 4)%nat, Black) in
         let! l := get_liberties dbg g (4, 4)%nat in
         let! g := foldM (fun g p => push_stone dbg g (p, White)) l g in
         get_liberties dbg g (4, 4)%nat) (fun l => (length l =? 0)%nat)) = true.
Proof. vm_compute. reflexivity. Qed.

(** tests/general_tests.rs:494-504 [atari_2] *)
Example atari_2 : in_both (fun dbg =>
  is_ok (let! g := started Nine CHINESE dbg [MPlay 1 0; MPlay 0 0; MPlay 0 1] in
         get_color (gm_goban g) (0, 0)%nat) (mcolor_eqb None)) = true.
Proof. vm_compute. reflexivity. Qed.

(** tests/general_tests.rs:507-513 [game_finished] *)
Example game_finished : in_both (fun dbg =>
  is_ok (started Nine CHINESE dbg [MPass; MPass]) is_over) = true.
Proof. vm_compute. reflexivity. Qed.

(** tests/general_tests.rs:516-524 [calculate_score] *)
Example calculate_score_test : in_both (fun dbg =>
  is_ok (let! g := started Nine JAPANESE dbg [MPlay 4 4; MPass; MPass] in
         calculate_score by_rows dbg g)
    (fun s => f32_eqb (fst s) (f32_of_N 80) && f32_eqb (snd s) (r_komi JAPANESE))) = true.
Proof. vm_compute. reflexivity. Qed.

(** tests/general_tests.rs:527-572 [calculate_score2] *)
Example calculate_score2 : in_both (fun dbg =>
  is_ok (let! g := game_new Nineteen CHINESE in
         try_plays dbg (set_komi g (f32_of_N 0))
           (List.map (fun x => MPlay (if Nat.even x then 9 else 8) (x / 2)) (seq 0 38)))
    (fun g =>
       is_ok (calculate_score by_rows dbg g)
         (fun s => f32_eqb (fst s) (f32_of_N (10 * 19)) && f32_eqb (snd s) (f32_of_N (9 * 19)))
       && is_ok
            (let! gb := push_many dbg (gm_goban g) (List.map (fun x => (x, 3)) (seq 10 9)) Black in
             push_many dbg gb
               [(11, 6); (11, 7); (11, 8); (12, 6); (12, 8); (13, 6); (13, 7); (13, 8)] White)
            (fun gb =>
               is_ok (calculate_territories by_rows dbg gb)
                 (fun t => (fst t =? 27) && (snd t =? 8 * 19 + 1))
               && is_ok
                    (let! gb := push_many dbg gb
                                  [(17, 18); (18, 17); (18, 15); (17, 16); (16, 17); (15, 18)]
                                  Black in
                     calculate_territories by_rows dbg gb)
                    (fun t => (fst t =? 27 + 4) && (snd t =? 8 * 19 + 1)))))%nat = true.
Proof. vm_compute. reflexivity. Qed.

(** tests/general_tests.rs:575-592 [calculate_chinese_score] *)
Example calculate_chinese_score : in_both (fun dbg =>
  is_ok (started Nine CHINESE dbg [MPlay 4 4; MPass; MPass])
    (fun g =>
       is_ok (calculate_score by_rows dbg g)
         (fun s => f32_eqb (fst s) (f32_of_N 81) && f32_eqb (snd s) (komi g))
       && is_ok (outcome by_rows dbg g)
            (fun o => match o with
                      | Some e => endgame_eqb e
                                    (WinnerByScore Black (f32_sub (f32_of_N 81) (komi g)))
                      | None => false
                      end))) = true.
Proof. vm_compute. reflexivity. Qed.

(** tests/general_tests.rs:595-604 [zobrist_test] *)
Example zobrist_test :
  is_ok (mapM (fun '(i, c) => index_zobrist i c) (list_prod (seq 0 361) [Black; White]))
    (fun l => (length (List.nodup N.eq_dec l) =? length l)%nat) = true.
Proof. vm_compute. reflexivity. Qed.

(** tests/general_tests.rs:607-629 [ko_test] *)
Example ko_test : in_both (fun dbg =>
  is_ok (let! g := game_default in
         plays dbg g [MPlay 0 3; MPlay 0 2; MPlay 1 4; MPlay 2 2; MPlay 2 3; MPlay 1 1;
                      MPlay 1 2; MPlay 1 3])
    (fun g => is_ok (check_ko dbg g ((1, 2)%nat, Black)) (fun b => b)
              && is_ok (legals dbg g) (fun l => negb (existsb (coord_eqb (1, 2)%nat) l))
              && refused_with dbg g (MPlay 1 2)
                   (fun e => match e with EKo => true | _ => false end))) = true.
Proof. vm_compute. reflexivity. Qed.

(** tests/general_tests.rs:632-658 [four_in_the_corner_super_ko] *)
Definition superko_sgf : list sgf_node := [
  [TGame true; TOther; TSize 11 11; TOther; TOther; TOther; TOther; TOther; TUnknown "PL" "W"; TAdd Black 4 3; TAdd Black 4 4; TAdd Black 4 5; TAdd Black 4 6; TAdd Black 3 7; TAdd Black 5 7; TAdd Black 4 8; TAdd Black 4 9; TAdd Black 4 10; TAdd White 5 6; TAdd White 6 6; TAdd White 7 6; TAdd White 8 6; TAdd White 7 7; TAdd White 5 8; TAdd White 6 8; TAdd White 7 8; TAdd White 8 8];
  [TMove White (SMove 9 7); TOther; TOther]; [] ].
Example four_in_the_corner_super_ko : in_both (fun dbg =>
  is_ok (let! g := from_sgf_nodes dbg superko_sgf in plays dbg g [MPlay 6 5; MPlay 6 3])
    (fun g => is_ok (check_super_ko dbg g ((6, 4)%nat, Black)) (fun b => b))) = true.
Proof. vm_compute. reflexivity. Qed.

(** tests/general_tests.rs:661-680 [ko_test_2] *)
Example ko_test_2 : in_both (fun dbg =>
  is_ok (let! g := game_new Nineteen CHINESE in
         try_plays dbg g
           [MPlay 0 2; MPlay 0 1; MPlay 0 3; MPlay 1 2; MPlay 1 4; MPlay 1 3; MPlay 0 5;
            MPlay 2 4; MPlay 2 5; MPlay 0 4; MPlay 0 3]) (fun _ => true)) = true.
Proof. vm_compute. reflexivity. Qed.

(** tests/general_tests.rs:683-704 [suicide_test] *)
Example suicide_test : in_both (fun dbg =>
  is_ok (let! g := game_default in
         plays dbg g [MPlay 0 2; MPlay 0 0; MPlay 1 1; MPlay 1 0; MPlay 2 0])
    (fun g => is_ok (check_suicide dbg g ((0, 1)%nat, White)) (fun b => b)
              && is_ok (legals dbg g) (fun l => negb (existsb (coord_eqb (0, 1)%nat) l))
              && refused_with dbg g (MPlay 0 1) (fun _ => true))) = true.
Proof. vm_compute. reflexivity. Qed.

(** tests/general_tests.rs:707-727 [snap_back_test] *)
Example snap_back_test : in_both (fun dbg =>
  is_ok (started Nineteen JAPANESE dbg
           [MPlay 3 3; MPlay 2 2; MPlay 2 4; MPlay 2 3; MPlay 4 2; MPlay 3 5; MPlay 1 3;
            MPlay 3 4; MPlay 3 1; MPlay 4 3; MPlay 2 1; MPlay 5 3; MPlay 1 2; MPlay 3 2])
    (fun g => accepted dbg g (MPlay 3 3))) = true.
Proof. vm_compute. reflexivity. Qed.

(** tests/general_tests.rs:731-743 [ko_pass] *)
Example ko_pass : in_both (fun dbg =>
  is_ok (started Nineteen JAPANESE dbg
           [MPlay 1 1; MPlay 0 1; MPlay 2 0; MPlay 1 0; MPlay 0 0; MPass])
    (fun g => accepted dbg g (MPlay 1 0))) = true.
Proof. vm_compute. reflexivity. Qed.

(** tests/general_tests.rs:746-755 [suicide_labeled_as_ko] *)
Example suicide_labeled_as_ko : in_both (fun dbg =>
  is_ok (started Nineteen JAPANESE dbg [MPlay 0 1; MPlay 0 0; MPlay 1 0])
    (fun g => refused_with dbg g (MPlay 0 0)
                (fun e => match e with ESuicide => true | _ => false end))) = true.
Proof. vm_compute. reflexivity. Qed.

Definition ends_with (nodes : list sgf_node) (e : endgame) (p : N * N) : bool :=
  in_both (fun dbg =>
    is_ok (from_sgf_nodes dbg nodes)
      (fun g => is_ok (outcome by_rows dbg g)
                  (fun o => match o with Some e' => endgame_eqb e' e | None => false end)
                && pair_eqb (gm_prisoners g) p)).

(** tests/general_tests.rs:759-767 [sgf_test] *)
Example sgf_test : ends_with shusaku (WinnerByScore Black (f32_of_N 2)) (31, 29)%N = true.
Proof. vm_compute. reflexivity. Qed.

(** tests/general_tests.rs:770-778 [sgf_test_2_2ha], sgf/sgf_2_2ha.sgf *)
Definition sgf_2_2ha : list sgf_node := [
  [TOther; TGame true; TSize 19 19; TOther; TOther; TOther; TOther; THandicap 2; TOther; TKomi (f32_make 0 (-1)); TOther; TResult (SWinnerByPoints Black (f32_make 2 (-1))); TAdd Black 4 16; TAdd Black 16 4];
  [TMove White (SMove 3 4)]; [TMove Black (SMove 5 3)]; [TMove White (SMove 14 3)];
  [TMove Black (SMove 17 7)]; [TMove White (SMove 9 3)]; [TMove Black (SMove 17 16)];
  [TMove White (SMove 15 17)]; [TMove Black (SMove 12 17)]; [TMove White (SMove 4 3)];
  [TMove Black (SMove 3 13)]; [TMove White (SMove 17 3)]; [TMove Black (SMove 16 3)];
  [TMove White (SMove 17 4)]; [TMove Black (SMove 17 5)]; [TMove White (SMove 18 5)];
  [TMove Black (SMove 17 6)]; [TMove White (SMove 16 2)]; [TMove Black (SMove 15 2)];
  [TMove White (SMove 17 2)]; [TMove Black (SMove 15 3)]; [TMove White (SMove 17 13)];
  [TMove Black (SMove 16 15)]; [TMove White (SMove 17 10)]; [TMove Black (SMove 14 4)];
  [TMove White (SMove 5 4)]; [TMove Black (SMove 3 10)]; [TMove White (SMove 12 16)];
  [TMove Black (SMove 11 16)]; [TMove White (SMove 13 17)]; [TMove Black (SMove 12 15)];
  [TMove White (SMove 13 16)]; [TMove Black (SMove 11 17)]; [TMove White (SMove 15 14)];
  [TMove Black (SMove 16 17)]; [TMove White (SMove 11 15)]; [TMove Black (SMove 10 15)];
  [TMove White (SMove 11 14)]; [TMove Black (SMove 10 14)]; [TMove White (SMove 9 16)];
  [TMove Black (SMove 11 13)]; [TMove White (SMove 12 14)]; [TMove Black (SMove 10 16)];
  [TMove White (SMove 6 17)]; [TMove Black (SMove 5 17)]; [TMove White (SMove 6 16)];
  [TMove Black (SMove 8 17)]; [TMove White (SMove 9 17)]; [TMove Black (SMove 8 16)];
  [TMove White (SMove 4 15)]; [TMove Black (SMove 3 15)]; [TMove White (SMove 4 14)];
  [TMove Black (SMove 3 14)]; [TMove White (SMove 5 18)]; [TMove Black (SMove 4 18)];
  [TMove White (SMove 7 18)]; [TMove Black (SMove 8 18)]; [TMove White (SMove 3 17)];
  [TMove Black (SMove 5 19)]; [TMove White (SMove 4 17)]; [TMove Black (SMove 6 18)];
  [TMove White (SMove 5 16)]; [TMove Black (SMove 3 16)]; [TMove White (SMove 5 18)];
  [TMove Black (SMove 12 13)]; [TMove White (SMove 13 14)]; [TMove Black (SMove 5 17)];
  [TMove White (SMove 16 18)]; [TMove Black (SMove 5 18)]; [TMove White (SMove 17 18)];
  [TMove Black (SMove 18 6)]; [TMove White (SMove 14 2)]; [TMove Black (SMove 13 3)];
  [TMove White (SMove 13 2)]; [TMove Black (SMove 12 3)]; [TMove White (SMove 12 2)];
  [TMove Black (SMove 15 1)]; [TMove White (SMove 11 3)]; [TMove Black (SMove 18 4)];
  [TMove White (SMove 8 15)]; [TMove Black (SMove 7 15)]; [TMove White (SMove 7 14)];
  [TMove Black (SMove 8 14)]; [TMove White (SMove 9 15)]; [TMove Black (SMove 9 18)];
  [TMove White (SMove 6 15)]; [TMove Black (SMove 7 16)]; [TMove White (SMove 4 10)];
  [TMove Black (SMove 3 9)]; [TMove White (SMove 4 12)]; [TMove Black (SMove 3 12)];
  [TMove White (SMove 8 13)]; [TMove Black (SMove 9 14)]; [TMove White (SMove 3 7)];
  [TMove Black (SMove 7 13)]; [TMove White (SMove 6 14)]; [TMove Black (SMove 7 12)];
  [TMove White (SMove 7 11)]; [TMove Black (SMove 8 11)]; [TMove White (SMove 7 10)];
  [TMove Black (SMove 6 12)]; [TMove White (SMove 5 12)]; [TMove Black (SMove 5 10)];
  [TMove White (SMove 5 9)]; [TMove Black (SMove 4 9)]; [TMove White (SMove 6 11)];
  [TMove Black (SMove 8 12)]; [TMove White (SMove 5 8)]; [TMove Black (SMove 4 7)];
  [TMove White (SMove 4 8)]; [TMove Black (SMove 3 8)]; [TMove White (SMove 5 7)];
  [TMove Black (SMove 2 7)]; [TMove White (SMove 4 6)]; [TMove Black (SMove 8 10)];
  [TMove White (SMove 13 4)]; [TMove Black (SMove 9 6)]; [TMove White (SMove 14 5)];
  [TMove Black (SMove 15 5)]; [TMove White (SMove 15 6)]; [TMove Black (SMove 17 12)];
  [TMove White (SMove 16 12)]; [TMove Black (SMove 17 11)]; [TMove White (SMove 16 11)];
  [TMove Black (SMove 18 13)]; [TMove White (SMove 17 14)]; [TMove Black (SMove 18 10)];
  [TMove White (SMove 18 9)]; [TMove Black (SMove 17 9)]; [TMove White (SMove 16 10)];
  [TMove Black (SMove 18 11)]; [TMove White (SMove 18 14)]; [TMove Black (SMove 2 6)];
  [TMove White (SMove 15 4)]; [TMove Black (SMove 7 9)]; [TMove White (SMove 5 11)];
  [TMove Black (SMove 14 4)]; [TMove White (SMove 8 8)]; [TMove Black (SMove 9 8)];
  [TMove White (SMove 15 4)]; [TMove Black (SMove 16 5)]; [TMove White (SMove 8 7)];
  [TMove Black (SMove 9 7)]; [TMove White (SMove 8 6)]; [TMove Black (SMove 8 9)];
  [TMove White (SMove 17 8)]; [TMove Black (SMove 18 8)]; [TMove White (SMove 16 9)];
  [TMove Black (SMove 19 9)]; [TMove White (SMove 19 13)]; [TMove Black (SMove 19 12)];
  [TMove White (SMove 18 12)]; [TMove Black (SMove 4 13)]; [TMove White (SMove 5 13)];
  [TMove Black (SMove 18 13)]; [TMove White (SMove 19 14)]; [TMove Black (SMove 1 4)];
  [TMove White (SMove 2 3)]; [TMove Black (SMove 8 5)]; [TMove White (SMove 9 5)];
  [TMove Black (SMove 10 5)]; [TMove White (SMove 9 4)]; [TMove Black (SMove 7 6)];
  [TMove White (SMove 7 5)]; [TMove Black (SMove 7 7)]; [TMove White (SMove 8 4)];
  [TMove Black (SMove 4 11)]; [TMove White (SMove 6 9)]; [TMove Black (SMove 7 8)];
  [TMove White (SMove 19 10)]; [TMove Black (SMove 17 9)]; [TMove White (SMove 18 3)];
  [TMove Black (SMove 19 5)]; [TMove White (SMove 18 9)]; [TMove Black (SMove 19 8)];
  [TMove White (SMove 17 9)]; [TMove Black (SMove 13 10)]; [TMove White (SMove 18 12)];
  [TMove Black (SMove 5 14)]; [TMove White (SMove 6 13)]; [TMove Black (SMove 18 13)];
  [TMove White (SMove 13 12)]; [TMove Black (SMove 13 13)]; [TMove White (SMove 14 13)];
  [TMove Black (SMove 12 12)]; [TMove White (SMove 18 12)]; [TMove Black (SMove 13 7)];
  [TMove White (SMove 13 11)]; [TMove Black (SMove 12 11)]; [TMove White (SMove 14 10)];
  [TMove Black (SMove 14 11)]; [TMove White (SMove 14 12)]; [TMove Black (SMove 14 9)];
  [TMove White (SMove 13 9)]; [TMove Black (SMove 12 10)]; [TMove White (SMove 14 8)];
  [TMove Black (SMove 15 10)]; [TMove White (SMove 13 8)]; [TMove Black (SMove 12 8)];
  [TMove White (SMove 12 7)]; [TMove Black (SMove 12 9)]; [TMove White (SMove 11 6)];
  [TMove Black (SMove 10 6)]; [TMove White (SMove 11 8)]; [TMove Black (SMove 11 7)];
  [TMove White (SMove 12 6)]; [TMove Black (SMove 18 13)]; [TMove White (SMove 19 4)];
  [TMove Black (SMove 19 3)]; [TMove White (SMove 18 12)]; [TMove Black (SMove 5 15)];
  [TMove White (SMove 7 17)]; [TMove Black (SMove 7 19)]; [TMove White (SMove 6 10)];
  [TMove Black (SMove 19 2)]; [TMove White (SMove 10 7)]; [TMove Black (SMove 11 9)];
  [TMove White (SMove 12 18)]; [TMove Black (SMove 11 18)]; [TMove White (SMove 2 5)];
  [TMove Black (SMove 1 5)]; [TMove White (SMove 1 3)]; [TMove Black (SMove 18 13)];
  [TMove White (SMove 3 18)]; [TMove Black (SMove 2 18)]; [TMove White (SMove 18 12)];
  [TMove Black (SMove 6 6)]; [TMove White (SMove 3 6)]; [TMove Black (SMove 6 5)];
  [TMove White (SMove 6 4)]; [TMove Black (SMove 18 13)]; [TMove White (SMove 8 19)];
  [TMove Black (SMove 9 19)]; [TMove White (SMove 18 12)]; [TMove Black (SMove 14 4)];
  [TMove White (SMove 13 5)]; [TMove Black (SMove 18 13)]; [TMove White (SMove 2 8)];
  [TMove Black (SMove 2 9)]; [TMove White (SMove 18 12)]; [TMove Black (SMove 8 5)];
  [TMove White (SMove 8 6)]; [TMove Black (SMove 13 18)]; [TMove White (SMove 14 18)];
  [TMove Black (SMove 12 19)]; [TMove White (SMove 19 11)]; [TMove Black (SMove 11 5)];
  [TMove White (SMove 12 5)]; [TMove Black (SMove 15 7)]; [TMove White (SMove 14 7)];
  [TMove Black (SMove 16 6)]; [TMove White (SMove 15 11)]; [TMove Black (SMove 14 6)];
  [TMove White (SMove 15 8)]; [TMove Black (SMove 14 10)]; [TMove White (SMove 4 10)];
  [TMove Black (SMove 1 8)]; [TMove White (SMove 3 11)]; [TMove Black (SMove 2 11)];
  [TMove White (SMove 1 6)]; [TMove Black (SMove 1 7)]; [TMove White (SMove 4 11)];
  [TMove Black (SMove 8 7)]; [TMove White (SMove 8 5)]; [TMove Black (SMove 5 5)];
  [TMove White (SMove 4 5)]; [TMove Black (SMove 10 8)]; [TMove White (SMove 11 7)];
  [TMove Black (SMove 14 1)]; [TMove White (SMove 13 1)]; [TMove Black (SMove 10 4)];
  [TMove White (SMove 10 3)]; [TMove Black (SMove 11 4)]; [TMove White (SMove 12 4)];
  [TMove Black (SMove 14 19)]; [TMove White (SMove 15 19)]; [TMove Black (SMove 13 19)];
  [TMove White (SMove 15 4)] ].
Example sgf_test_2_2ha : ends_with sgf_2_2ha (WinnerByScore Black (f32_of_N 1)) (25, 26)%N = true.
Proof. vm_compute. reflexivity. Qed.

(** tests/general_tests.rs:781-791 [sgf_test_1], sgf/sgf_1.sgf *)
Definition sgf_1 : list sgf_node := [
  [TOther; TGame true; TSize 19 19; TOther; TOther; TOther; TOther; TOther; TOther; TOther; TOther; TOther; TKomi (f32_make 15 (-1)); TOther; TResult (SWinnerByResign White); TOther; TOther; TOther; TOther];
  [TMove Black (SMove 17 4)]; [TMove White (SMove 4 4)]; [TMove Black (SMove 16 17)];
  [TMove White (SMove 4 16)]; [TMove Black (SMove 14 4)]; [TMove White (SMove 16 15)];
  [TMove Black (SMove 17 15)]; [TMove White (SMove 17 14)]; [TMove Black (SMove 17 16)];
  [TMove White (SMove 16 14)]; [TMove Black (SMove 14 17)]; [TMove White (SMove 16 10)];
  [TMove Black (SMove 3 3)]; [TMove White (SMove 4 3)]; [TMove Black (SMove 3 4)];
  [TMove White (SMove 3 5)]; [TMove Black (SMove 2 5)]; [TMove White (SMove 2 6)];
  [TMove Black (SMove 3 6)]; [TMove White (SMove 4 5)]; [TMove Black (SMove 2 7)];
  [TMove White (SMove 2 4)]; [TMove Black (SMove 1 6)]; [TMove White (SMove 2 3)];
  [TMove Black (SMove 3 14)]; [TMove White (SMove 6 17)]; [TMove Black (SMove 17 8)];
  [TMove White (SMove 3 15)]; [TMove Black (SMove 4 14)]; [TMove White (SMove 3 10)];
  [TMove Black (SMove 4 6)]; [TMove White (SMove 3 12)]; [TMove Black (SMove 7 14)];
  [TMove White (SMove 5 12)]; [TMove Black (SMove 7 16)]; [TMove White (SMove 6 15)];
  [TMove Black (SMove 6 16)]; [TMove White (SMove 5 16)]; [TMove Black (SMove 5 15)];
  [TMove White (SMove 7 17)]; [TMove Black (SMove 8 16)]; [TMove White (SMove 8 17)];
  [TMove Black (SMove 6 14)]; [TMove White (SMove 9 16)]; [TMove Black (SMove 2 14)];
  [TMove White (SMove 3 8)]; [TMove Black (SMove 2 16)]; [TMove White (SMove 2 15)];
  [TMove Black (SMove 1 15)]; [TMove White (SMove 3 17)]; [TMove Black (SMove 5 9)];
  [TMove White (SMove 7 12)]; [TMove Black (SMove 6 10)]; [TMove White (SMove 5 6)];
  [TMove Black (SMove 5 7)]; [TMove White (SMove 4 7)]; [TMove Black (SMove 3 7)];
  [TMove White (SMove 4 8)]; [TMove Black (SMove 3 2)]; [TMove White (SMove 2 2)];
  [TMove Black (SMove 4 2)]; [TMove White (SMove 5 5)]; [TMove Black (SMove 5 2)];
  [TMove White (SMove 1 4)]; [TMove Black (SMove 2 1)]; [TMove White (SMove 1 5)];
  [TMove Black (SMove 9 15)]; [TMove White (SMove 2 6)]; [TMove Black (SMove 8 3)];
  [TMove White (SMove 1 7)]; [TMove Black (SMove 11 3)]; [TMove White (SMove 15 3)];
  [TMove Black (SMove 14 3)]; [TMove White (SMove 10 4)]; [TMove Black (SMove 10 3)];
  [TMove White (SMove 17 6)]; [TMove Black (SMove 16 5)]; [TMove White (SMove 18 4)];
  [TMove Black (SMove 18 5)]; [TMove White (SMove 18 3)]; [TMove Black (SMove 17 3)];
  [TMove White (SMove 17 2)]; [TMove Black (SMove 16 2)]; [TMove White (SMove 17 5)];
  [TMove Black (SMove 18 6)]; [TMove White (SMove 16 6)]; [TMove Black (SMove 17 7)];
  [TMove White (SMove 16 3)]; [TMove Black (SMove 16 4)]; [TMove White (SMove 15 2)];
  [TMove Black (SMove 18 2)]; [TMove White (SMove 16 1)]; [TMove Black (SMove 19 4)];
  [TMove White (SMove 14 2)]; [TMove Black (SMove 13 2)]; [TMove White (SMove 14 1)];
  [TMove Black (SMove 8 5)]; [TMove White (SMove 8 6)]; [TMove Black (SMove 9 10)];
  [TMove White (SMove 7 5)]; [TMove Black (SMove 8 4)]; [TMove White (SMove 9 6)];
  [TMove Black (SMove 7 7)]; [TMove White (SMove 7 6)]; [TMove Black (SMove 18 12)];
  [TMove White (SMove 16 16)]; [TMove Black (SMove 17 17)]; [TMove White (SMove 17 12)];
  [TMove Black (SMove 17 11)]; [TMove White (SMove 16 11)]; [TMove Black (SMove 16 12)];
  [TMove White (SMove 17 13)]; [TMove Black (SMove 17 10)]; [TMove White (SMove 15 12)];
  [TMove Black (SMove 9 12)]; [TMove White (SMove 8 11)]; [TMove Black (SMove 8 10)];
  [TMove White (SMove 10 16)]; [TMove Black (SMove 2 17)]; [TMove White (SMove 13 17)];
  [TMove Black (SMove 14 16)]; [TMove White (SMove 4 15)]; [TMove Black (SMove 7 15)];
  [TMove White (SMove 9 11)]; [TMove Black (SMove 10 11)]; [TMove White (SMove 10 10)];
  [TMove Black (SMove 10 9)]; [TMove White (SMove 11 10)]; [TMove Black (SMove 10 12)];
  [TMove White (SMove 5 13)]; [TMove Black (SMove 5 14)]; [TMove White (SMove 11 9)];
  [TMove Black (SMove 10 8)]; [TMove White (SMove 12 7)]; [TMove Black (SMove 4 11)];
  [TMove White (SMove 4 10)]; [TMove Black (SMove 5 11)]; [TMove White (SMove 4 12)];
  [TMove Black (SMove 8 12)]; [TMove White (SMove 7 11)]; [TMove Black (SMove 6 12)];
  [TMove White (SMove 6 13)]; [TMove Black (SMove 7 13)]; [TMove White (SMove 6 11)];
  [TMove Black (SMove 7 10)]; [TMove White (SMove 6 12)]; [TMove Black (SMove 10 6)];
  [TMove White (SMove 11 6)]; [TMove Black (SMove 10 7)]; [TMove White (SMove 10 5)];
  [TMove Black (SMove 6 8)]; [TMove White (SMove 8 8)]; [TMove Black (SMove 8 7)];
  [TMove White (SMove 9 7)]; [TMove Black (SMove 9 8)]; [TMove White (SMove 13 18)];
  [TMove Black (SMove 13 16)]; [TMove White (SMove 12 16)]; [TMove Black (SMove 12 17)];
  [TMove White (SMove 12 18)]; [TMove Black (SMove 16 9)]; [TMove White (SMove 14 10)];
  [TMove Black (SMove 5 10)]; [TMove White (SMove 11 8)]; [TMove Black (SMove 7 8)];
  [TMove White (SMove 6 3)]; [TMove Black (SMove 6 2)]; [TMove White (SMove 15 9)];
  [TMove Black (SMove 3 11)]; [TMove White (SMove 2 11)]; [TMove Black (SMove 2 12)];
  [TMove White (SMove 2 13)]; [TMove Black (SMove 2 10)]; [TMove White (SMove 1 12)];
  [TMove Black (SMove 2 9)]; [TMove White (SMove 2 8)]; [TMove Black (SMove 3 13)];
  [TMove White (SMove 15 4)]; [TMove Black (SMove 15 5)]; [TMove White (SMove 1 9)];
  [TMove Black (SMove 4 13)]; [TMove White (SMove 2 12)]; [TMove Black (SMove 2 18)];
  [TMove White (SMove 16 8)]; [TMove Black (SMove 17 9)]; [TMove White (SMove 14 18)];
  [TMove Black (SMove 15 18)]; [TMove White (SMove 3 9)]; [TMove Black (SMove 4 18)];
  [TMove White (SMove 5 18)]; [TMove Black (SMove 12 15)]; [TMove White (SMove 11 16)];
  [TMove Black (SMove 14 7)]; [TMove White (SMove 15 6)]; [TMove Black (SMove 14 5)];
  [TMove White (SMove 15 8)]; [TMove Black (SMove 18 1)]; [TMove White (SMove 17 1)];
  [TMove Black (SMove 16 7)]; [TMove White (SMove 15 7)]; [TMove Black (SMove 14 6)];
  [TMove White (SMove 14 8)]; [TMove Black (SMove 13 12)]; [TMove White (SMove 14 14)];
  [TMove Black (SMove 3 16)]; [TMove White (SMove 18 15)]; [TMove Black (SMove 18 16)];
  [TMove White (SMove 18 13)]; [TMove Black (SMove 19 11)]; [TMove White (SMove 12 2)];
  [TMove Black (SMove 11 2)]; [TMove White (SMove 7 3)]; [TMove Black (SMove 7 2)];
  [TMove White (SMove 9 2)]; [TMove Black (SMove 9 3)]; [TMove White (SMove 11 1)];
  [TMove Black (SMove 10 1)]; [TMove White (SMove 12 1)]; [TMove Black (SMove 15 11)];
  [TMove White (SMove 15 10)]; [TMove Black (SMove 14 11)]; [TMove White (SMove 14 12)];
  [TMove Black (SMove 13 11)]; [TMove White (SMove 13 10)]; [TMove Black (SMove 13 13)];
  [TMove White (SMove 14 15)]; [TMove Black (SMove 13 7)]; [TMove White (SMove 13 8)];
  [TMove Black (SMove 4 17)]; [TMove White (SMove 5 17)]; [TMove Black (SMove 5 19)];
  [TMove White (SMove 6 19)]; [TMove Black (SMove 4 19)]; [TMove White (SMove 10 15)];
  [TMove Black (SMove 10 14)]; [TMove White (SMove 9 14)]; [TMove Black (SMove 8 15)];
  [TMove White (SMove 11 14)]; [TMove Black (SMove 10 13)]; [TMove White (SMove 12 14)];
  [TMove Black (SMove 13 15)]; [TMove White (SMove 13 14)]; [TMove Black (SMove 7 19)];
  [TMove White (SMove 6 18)] ].
Example sgf_test_1 : ends_with sgf_1 (WinnerByResign White) (2, 9)%N = true.
Proof. vm_compute. reflexivity. Qed.

(** src/pieces/group.rs:277-311 [circular_ren_iter_test] *)
Fixpoint items (dbg : bool) (nx : list nat) (it : circular_iter) (k : nat) : res (list (option nat)) :=
  match k with
  | O => Ok []
  | S k => let! '(it', o) := iter_next dbg nx it in
           let! l := items dbg nx it' k in Ok (o :: l)
  end.
Definition opt_eqb (a b : option nat) : bool :=
  match a, b with Some x, Some y => (x =? y)%nat | None, None => true | _, _ => false end.
Definition shows (l l' : list (option nat)) : bool :=
  (length l =? length l')%nat && forallb (fun '(a, b) => opt_eqb a b) (zip l l').
Definition ring : list nat := [0; 0; 4; 0; 6; 0; 2; 0; 8; 0; 0; 0]%nat.
Example circular_ren_iter_test : in_both (fun dbg =>
  is_ok (items dbg ring (mkIter 2 (Some 2) 3) 5) (shows [Some 2; Some 4; Some 6; None; None])
  && is_ok (items dbg ring (mkIter 8 (Some 8) 1) 3) (shows [Some 8; None; None]))%nat = true.
Proof. vm_compute. reflexivity. Qed.
