(** Model of the functions in benches/perft.rs that use the library. *)
From Verif Require Export DeadStones.

(** [u64] addition, as in benches/perft.rs:21-26 ([sum]): overflow panics in debug
    builds and wraps in release builds *)
Definition u64_add (dbg : bool) (a b : N) : res N :=
  if (a + b <? 2 ^ 64)%N then Ok (a + b)%N
  else if dbg then Panic else Ok ((a + b) mod 2 ^ 64)%N.

(** benches/perft.rs:11-29 [perft].  The depth is a u8 there, any natural here; the
    lazy list of legal moves is computed before the sum. *)
Fixpoint perft (dbg : bool) (g : game) (depth : nat) : res N :=
  match depth with
  | O => Ok 1%N
  | S d =>
      let! moves := legals dbg g in
      match d with
      | O => Ok (N.of_nat (length moves))
      | S _ =>
          foldM (fun s p => let! child := play dbg g (MPlay (fst p) (snd p)) in
                            let! k := perft dbg child d in
                            u64_add dbg s k) moves 0%N
      end
  end.

(** benches/perft.rs:60-67, the loop of [play_random] *)
Fixpoint first_no_eye (dbg : bool) (g : game) (l : list coord) : res move :=
  match l with
  | [] => Ok MPass
  | p :: t => let! b := check_eye dbg g (p, gm_turn g) in
              if b then first_no_eye dbg g t else Ok (MPlay (fst p) (snd p))
  end.

(** benches/perft.rs:57-69 [play_random]; [shuffle] is what the random generator does
    to the list *)
Definition play_random (shuffle : list coord -> list coord) (dbg : bool) (g : game) : res move :=
  let! v := legals dbg g in
  first_no_eye dbg g (shuffle v).

(** benches/perft.rs:52-54 and 73-75, the loops of [fast_play_game] and [play_game]:
    [pick i] chooses the i-th move.  The loop has fuel. *)
Fixpoint play_until_over (fuel i : nat) (pick : nat -> game -> res move) (dbg : bool) (g : game) : res game :=
  if is_over g then Ok g
  else match fuel with
       | O => Diverge
       | S fuel =>
           let! m := pick i g in
           let! g' := play dbg g m in
           play_until_over fuel (S i) pick dbg g'
       end.

(** benches/perft.rs:49-55 [fast_play_game]; its [fast_play_random] (lines 31-47) is that
    of src/rules/dead_stones.rs *)
Definition fast_play_game (fuel : nat) (shuffles : nat -> list coord -> list coord) (dbg : bool) (r : rule) : res game :=
  let! g := game_new Nineteen r in
  play_until_over fuel 0 (fun i => fast_play_random (shuffles i) dbg) dbg g.

(** benches/perft.rs:71-76 [play_game] *)
Definition play_game (fuel : nat) (shuffles : nat -> list coord -> list coord) (dbg : bool) : res game :=
  let! g := game_new Nineteen CHINESE in
  play_until_over fuel 0 (fun i => play_random (shuffles i) dbg) dbg g.
