(** Model of the third benchmark of benches/perft.rs, [some_plays_from_sgf]. *)
From Verif Require Export Bench.

(** benches/perft.rs:78-397 [MOVES_SGF] *)
Definition MOVES_SGF : list move := [
  MPlay 16 13; MPlay 16 11; MPlay 14 12; MPlay 14 11; MPlay 13 11; MPlay 13 12; MPlay 14 13;
  MPlay 14 10; MPlay 12 12; MPlay 13 13; MPlay 14 14; MPlay 12 13; MPlay 14 15; MPlay 11 12;
  MPlay 12 11; MPlay 11 13; MPlay 12 9; MPlay 13 8; MPlay 13 9; MPlay 14 9; MPlay 14 8;
  MPlay 12 8; MPlay 11 11; MPlay 15 8; MPlay 14 7; MPlay 13 6; MPlay 15 7; MPlay 16 8;
  MPlay 16 7; MPlay 17 7; MPlay 17 6; MPlay 17 8; MPlay 14 5; MPlay 16 4; MPlay 12 6;
  MPlay 11 8; MPlay 13 5; MPlay 10 11; MPlay 10 10; MPlay 11 10; MPlay 13 2; MPlay 11 9;
  MPlay 16 2; MPlay 15 2; MPlay 15 1; MPlay 14 1; MPlay 16 1; MPlay 13 3; MPlay 12 3;
  MPlay 12 2; MPlay 13 1; MPlay 14 2; MPlay 13 4; MPlay 12 1; MPlay 13 0; MPlay 14 0;
  MPlay 14 3; MPlay 17 4; MPlay 17 5; MPlay 18 1; MPlay 2 13; MPlay 2 11; MPlay 4 12;
  MPlay 3 13; MPlay 3 12; MPlay 2 12; MPlay 3 14; MPlay 4 13; MPlay 4 14; MPlay 5 13;
  MPlay 2 14; MPlay 5 14; MPlay 4 15; MPlay 2 6; MPlay 5 15; MPlay 6 15; MPlay 6 16;
  MPlay 7 15; MPlay 7 16; MPlay 8 16; MPlay 6 14; MPlay 5 12; MPlay 3 10; MPlay 2 10;
  MPlay 4 10; MPlay 6 10; MPlay 5 11; MPlay 7 13; MPlay 6 11; MPlay 7 12; MPlay 7 11;
  MPlay 3 8; MPlay 7 14; MPlay 8 15; MPlay 8 14; MPlay 9 13; MPlay 9 12; MPlay 8 13;
  MPlay 10 14; MPlay 9 14; MPlay 10 12; MPlay 9 11; MPlay 8 11; MPlay 9 10; MPlay 10 13;
  MPlay 12 15; MPlay 12 14; MPlay 13 14; MPlay 13 15; MPlay 11 14; MPlay 11 15; MPlay 8 12;
  MPlay 12 14; MPlay 8 9; MPlay 4 8; MPlay 3 9; MPlay 4 9; MPlay 6 8; MPlay 4 6; MPlay 3 7;
  MPlay 4 7; MPlay 6 6; MPlay 2 5; MPlay 3 5; MPlay 3 6; MPlay 1 7; MPlay 7 9; MPlay 7 8;
  MPlay 1 6; MPlay 2 7; MPlay 5 5; MPlay 2 4; MPlay 6 5; MPlay 7 5; MPlay 6 9; MPlay 5 9;
  MPlay 7 10; MPlay 5 8; MPlay 7 4; MPlay 8 5; MPlay 5 2; MPlay 7 2; MPlay 7 3; MPlay 6 2;
  MPlay 6 3; MPlay 5 1; MPlay 4 2; MPlay 4 1; MPlay 3 2; MPlay 2 2; MPlay 3 1; MPlay 2 1;
  MPlay 8 2; MPlay 8 1; MPlay 9 4; MPlay 9 2; MPlay 9 9; MPlay 10 9; MPlay 9 8; MPlay 8 8;
  MPlay 8 10; MPlay 10 10; MPlay 10 7; MPlay 11 6; MPlay 10 6; MPlay 12 5; MPlay 11 5;
  MPlay 12 7; MPlay 11 4; MPlay 8 4; MPlay 15 4; MPlay 15 5; MPlay 14 6; MPlay 14 4;
  MPlay 13 3; MPlay 16 6; MPlay 15 4; MPlay 16 3; MPlay 16 5; MPlay 14 4; MPlay 15 6;
  MPlay 15 4; MPlay 17 2; MPlay 18 4; MPlay 18 5; MPlay 18 2; MPlay 18 3; MPlay 17 3;
  MPlay 15 0; MPlay 16 16; MPlay 17 15; MPlay 17 16; MPlay 16 15; MPlay 14 17; MPlay 13 17;
  MPlay 14 16; MPlay 15 16; MPlay 15 17; MPlay 17 17; MPlay 18 17; MPlay 17 18; MPlay 12 17;
  MPlay 13 16; MPlay 13 18; MPlay 11 17; MPlay 10 17; MPlay 11 18; MPlay 10 16; MPlay 11 16;
  MPlay 8 17; MPlay 5 10; MPlay 3 11; MPlay 4 0; MPlay 6 1; MPlay 17 12; MPlay 17 11;
  MPlay 4 5; MPlay 3 4; MPlay 8 7; MPlay 7 7; MPlay 7 18; MPlay 7 17; MPlay 6 17; MPlay 4 17;
  MPlay 5 17; MPlay 4 16; MPlay 5 16; MPlay 2 16; MPlay 1 16; MPlay 1 17; MPlay 1 15;
  MPlay 0 17; MPlay 2 15; MPlay 3 16; MPlay 3 18; MPlay 2 17; MPlay 4 18; MPlay 1 13;
  MPlay 1 18; MPlay 2 18; MPlay 5 18; MPlay 1 14; MPlay 0 16; MPlay 8 18; MPlay 3 17;
  MPlay 6 18; MPlay 0 18; MPlay 8 3; MPlay 4 3; MPlay 4 4; MPlay 5 4; MPlay 2 0; MPlay 3 0;
  MPlay 5 0; MPlay 5 3; MPlay 4 11; MPlay 8 6; MPlay 7 6; MPlay 9 5; MPlay 11 2; MPlay 12 0;
  MPlay 11 0; MPlay 10 1; MPlay 10 2; MPlay 11 1; MPlay 9 1; MPlay 10 0; MPlay 9 0; MPlay 11 0;
  MPlay 16 12; MPlay 17 13; MPlay 15 12; MPlay 18 11; MPlay 18 10; MPlay 18 12; MPlay 17 10;
  MPlay 0 14; MPlay 1 12; MPlay 10 18; MPlay 9 18; MPlay 18 7; MPlay 18 8; MPlay 15 13;
  MPlay 13 10; MPlay 12 10; MPlay 5 7; MPlay 11 3; MPlay 10 3; MPlay 10 4; MPlay 0 13;
  MPlay 6 12; MPlay 6 13; MPlay 18 3; MPlay 7 18; MPlay 18 6; MPlay 0 15; MPlay 1 5; MPlay 1 4;
  MPlay 0 14; MPlay 5 6; MPlay 0 15; MPlay 2 3; MPass; MPlay 15 14; MPass; MPlay 16 14;
  MPlay 17 14; MPlay 15 16; MPlay 18 15; MPlay 18 16; MPlay 14 18; MPlay 15 18; MPlay 12 18;
  MPlay 14 18; MPlay 16 17; MPlay 10 15; MPass; MPass ]%nat.

(** benches/perft.rs:402 [inv_coord] *)
Definition inv_coord : list nat := List.rev (seq 0 19).

(** benches/perft.rs:405-412: the move that is played for [m]; indexing [inv_coord] panics
    out of range.  The casts between u8 and usize keep their values here, since 18 is
    the largest index. *)
Definition inverted_move (m : move) : res move :=
  match m with
  | MPlay x y => match inv_coord !! x with Some x' => Ok (MPlay x' y) | None => Panic end
  | _ => Ok m
  end.

(** benches/perft.rs:399-415 [some_plays_from_sgf], for any handicap and any list of moves *)
Definition replay_inverted (dbg : bool) (handicap : list coord) (ms : list move) : res game :=
  let! g := game_new Nineteen CHINESE in
  let! g := put_handicap dbg g handicap in
  foldM (fun g m => let! to_play := inverted_move m in play dbg g to_play) ms g.

(** benches/perft.rs:400 and the call with [MOVES_SGF] *)
Definition bench_handicap : list coord := [(3, 3); (3, 15); (9, 3); (9, 15); (15, 3); (15, 15)]%nat.
Definition some_plays_from_sgf (dbg : bool) : res game := replay_inverted dbg bench_handicap MOVES_SGF.
