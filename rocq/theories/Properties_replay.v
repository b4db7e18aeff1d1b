(** The benchmark that replays a record: C123 *)
From stdpp Require Import relations sorting strings.
From Verif Require Import Spec Reach Observe SymSpec AreaSpec BenchSgf BenchSgfFacts BenchSgfClaims.
Local Notation length := Datatypes.length.
Open Scope nat_scope.

(** C123: for a handicap that is its own mirror image and a record accepted as it stands, the benchmark returns the mirror image of the game. *)
Theorem C123_replays_the_mirror_image dbg hc ms g g1 g2 : game_new Nineteen CHINESE = Ok g -> NoDup hc ->
  (forall p, p ∈ hc -> on 19 p /\ square_symmetry 19 2 p ∈ hc) -> put_handicap dbg g hc = Ok g1 ->
  (forall x y, MPlay x y ∈ ms -> on 19 (x, y)) -> (N.of_nat (length hc + length ms) <= 65535)%N ->
  all_accepted dbg g1 ms g2 ->
  exists h, replay_inverted dbg hc ms = Ok h /\
    all_accepted dbg g1 (List.map (image_move (square_symmetry 19 2) (fun c => c)) ms) h /\
    (forall x y, on 19 (x, y) -> position h ((18 - x)%nat, y) = position g2 (x, y)) /\
    gm_turn h = gm_turn g2 /\ gm_passes h = gm_passes g2 /\ gm_outcome h = gm_outcome g2 /\ gm_prisoners h = gm_prisoners g2.
Proof. exact (replay_mirrored dbg hc ms g g1 g2). Qed.
Print Assumptions C123_replays_the_mirror_image.

Example C123_replays_the_mirror_image_case dbg : exists g g1 g2, game_new Nineteen CHINESE = Ok g /\ NoDup bench_handicap /\
  (forall p, p ∈ bench_handicap -> on 19 p /\ square_symmetry 19 2 p ∈ bench_handicap) /\ put_handicap dbg g bench_handicap = Ok g1 /\
  (forall x y, MPlay x y ∈ MOVES_SGF -> on 19 (x, y)) /\ (N.of_nat (length bench_handicap + length MOVES_SGF) <= 65535)%N /\
  all_accepted dbg g1 MOVES_SGF g2 /\ gm_prisoners g2 = (16, 35)%N.
Proof. exact (case_replay dbg). Qed.

(** C123: a move in a row past 18 makes the benchmark panic. *)
Theorem C123_rows_past_the_board_panic dbg hc ms1 x y ms2 g : replay_inverted dbg hc ms1 = Ok g -> (19 <= x)%nat ->
  replay_inverted dbg hc (ms1 ++ MPlay x y :: ms2) = Panic.
Proof. exact (replay_off dbg hc ms1 x y ms2 g). Qed.
Print Assumptions C123_rows_past_the_board_panic.

Example C123_rows_past_the_board_panic_case dbg : exists g, replay_inverted dbg bench_handicap MOVES_SGF = Ok g /\ (19 <= 19)%nat.
Proof. exact (case_replay_off dbg). Qed.

(** C123: the record of the benchmark is accepted to its end. *)
Theorem C123_own_record dbg : exists g g1 h, game_new Nineteen CHINESE = Ok g /\ put_handicap dbg g bench_handicap = Ok g1 /\
  some_plays_from_sgf dbg = Ok h /\ all_accepted dbg g1 (List.map (image_move (square_symmetry 19 2) (fun c => c)) MOVES_SGF) h /\
  is_over h = true /\ gm_prisoners h = (16, 35)%N /\
  count 19 (position h) Black = 129%nat /\ count 19 (position h) White = 140%nat.
Proof. exact (bench_record dbg). Qed.
Print Assumptions C123_own_record.

(** C123: with a handicap stone in one corner the benchmark does not return the mirror image. *)
Theorem C123_any_handicap_refuted dbg : exists g g1 h h', game_new Nineteen CHINESE = Ok g /\ put_handicap dbg g [(0, 0)%nat] = Ok g1 /\
  all_accepted dbg g1 [MPlay 9 9] h /\ replay_inverted dbg [(0, 0)%nat] [MPlay 9 9] = Ok h' /\
  position h (0, 0)%nat = Some Black /\ position h' (18, 0)%nat = None.
Proof. exact (one_sided_handicap dbg). Qed.
Print Assumptions C123_any_handicap_refuted.
