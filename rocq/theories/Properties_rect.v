(** Boards that are not square: C96, C97, C98, C99, C101; the printed text: C102 *)
From stdpp Require Import relations sorting strings.
From Verif Require Import Text VerdictSpec PlayoutSpec Observe RectSpec RectVerdictSpec RectReach RectCases RectGo RectList RectScore RectViews.
Local Notation length := Datatypes.length.
Open Scope nat_scope.

(** C96: stones put on a board change the position as the rules of Go say, in every game, if and only if the width of the board divides its height. *)
Theorem C96_plays_go_iff_width_divides_height dbg h w : 1 <= h <= 19 -> 1 <= w <= 19 -> plays_go dbg (h, w) <-> Nat.divide w h.
Proof. exact (plays_go_iff dbg h w). Qed.
Print Assumptions C96_plays_go_iff_width_divides_height.

Example C96_plays_go_iff_width_divides_height_case : (1 <= 6 <= 19) /\ (1 <= 3 <= 19) /\ Nat.divide 3 6 /\ (1 <= 9 <= 19) /\ ~ Nat.divide 4 9 /\ ~ Nat.divide 9 4.
Proof. exact case_sizes. Qed.

Example C96_plays_go_iff_width_divides_height_case2 dbg : exists g b w g',
  Nat.divide 3 6 /\ 6 = 2 * 3 /\ rgreach dbg (6, 3) b w g /\ (N.of_nat (b + w) < 65535)%N /\ ron (6, 3) (4, 0) /\ position g (4, 0) = None /\
  gm_turn g = White /\ position g (5, 0) = Some Black /\ play dbg g (MPlay 4 0) = Ok g' /\ try_play dbg g (MPlay 4 0) = Ok (g', Accepted) /\ position g' (5, 0) = None /\
  position g (0, 1) = None /\ first_reason (rpoint_reasons (6, 3) (flag_illegal (gm_rule g)) (table_of g) (0, 1)) Accepted.
Proof. exact (case_tall dbg). Qed.

(** C96: on square boards the games meant here are the ones of the other properties. *)
Theorem C96_square_games dbg n b w g : rgreach dbg (n, n) b w g <-> greach dbg n b w g.
Proof. exact (square_reach dbg n b w g). Qed.
Print Assumptions C96_square_games.

(** C97: if the width divides the height, try_play answers a stone on the board as the rules say. *)
Theorem C97_verdicts dbg n b w g x y v : Nat.divide (snd n) (fst n) -> rgreach dbg n b w g -> (N.of_nat (b + w) < 65535)%N -> ron n (x, y) ->
  ((exists g', try_play dbg g (MPlay x y) = Ok (g', v)) <-> rjudged n (flag_illegal (gm_rule g)) (table_of g) (x, y) v).
Proof. exact (rect_verdict dbg n b w g x y v). Qed.
Print Assumptions C97_verdicts.

Example C97_verdicts_case dbg : exists g b w g',
  Nat.divide 3 6 /\ 6 = 2 * 3 /\ rgreach dbg (6, 3) b w g /\ (N.of_nat (b + w) < 65535)%N /\ ron (6, 3) (4, 0) /\ position g (4, 0) = None /\
  gm_turn g = White /\ position g (5, 0) = Some Black /\ play dbg g (MPlay 4 0) = Ok g' /\ try_play dbg g (MPlay 4 0) = Ok (g', Accepted) /\ position g' (5, 0) = None /\
  position g (0, 1) = None /\ first_reason (rpoint_reasons (6, 3) (flag_illegal (gm_rule g)) (table_of g) (0, 1)) Accepted.
Proof. exact (case_tall dbg). Qed.

(** C97: an accepted stone was put on an empty point and changes the position as the rules of Go say. *)
Theorem C97_accepted_moves dbg n b w g x y g' : Nat.divide (snd n) (fst n) -> rgreach dbg n b w g -> (N.of_nat (b + w) < 65535)%N -> ron n (x, y) ->
  try_play dbg g (MPlay x y) = Ok (g', Accepted) ->
  position g (x, y) = None /\
  rgo_move (negb (forbids_suicide (gm_rule g))) n (position g) (x, y) (gm_turn g) (position g') /\
  rgreach dbg n (fst (bump_count (gm_turn g) (b, w))) (snd (bump_count (gm_turn g) (b, w))) g'.
Proof. exact (rect_accepted dbg n b w g x y g'). Qed.
Print Assumptions C97_accepted_moves.

Example C97_accepted_moves_case dbg : exists g b w g',
  Nat.divide 3 6 /\ 6 = 2 * 3 /\ rgreach dbg (6, 3) b w g /\ (N.of_nat (b + w) < 65535)%N /\ ron (6, 3) (4, 0) /\ position g (4, 0) = None /\
  gm_turn g = White /\ position g (5, 0) = Some Black /\ play dbg g (MPlay 4 0) = Ok g' /\ try_play dbg g (MPlay 4 0) = Ok (g', Accepted) /\ position g' (5, 0) = None /\
  position g (0, 1) = None /\ first_reason (rpoint_reasons (6, 3) (flag_illegal (gm_rule g)) (table_of g) (0, 1)) Accepted.
Proof. exact (case_tall dbg). Qed.

(** C97: per colour, the stones put are those on the board and those taken. *)
Theorem C97_prisoners dbg n b w g : Nat.divide (snd n) (fst n) -> rgreach dbg n b w g ->
  (N.of_nat w = N.of_nat (rcount n (position g) White) + fst (gm_prisoners g) /\
   N.of_nat b = N.of_nat (rcount n (position g) Black) + snd (gm_prisoners g))%N.
Proof. exact (rect_prisoners dbg n b w g). Qed.
Print Assumptions C97_prisoners.

Example C97_prisoners_case dbg : exists g b w g',
  Nat.divide 3 6 /\ 6 = 2 * 3 /\ rgreach dbg (6, 3) b w g /\ (N.of_nat (b + w) < 65535)%N /\ ron (6, 3) (4, 0) /\ position g (4, 0) = None /\
  gm_turn g = White /\ position g (5, 0) = Some Black /\ play dbg g (MPlay 4 0) = Ok g' /\ try_play dbg g (MPlay 4 0) = Ok (g', Accepted) /\ position g' (5, 0) = None /\
  position g (0, 1) = None /\ first_reason (rpoint_reasons (6, 3) (flag_illegal (gm_rule g)) (table_of g) (0, 1)) Accepted.
Proof. exact (case_tall dbg). Qed.

(** C98: pseudo_legals on a board k times as high as wide: points below the top square are never listed, empty points of the square k times, occupied ones k - 1 times. *)
Theorem C98_empty_points dbg n b w g p k : fst n = k * snd n -> rgreach dbg n b w g ->
  exists l, pseudo_legals g = Ok l /\
    (fst p < snd n -> snd p < snd n -> position g p = None -> times p l = k) /\
    (fst p < snd n -> snd p < snd n -> position g p <> None -> times p l = k - 1) /\
    (snd n <= fst p \/ snd n <= snd p -> times p l = 0).
Proof. exact (rect_pseudo dbg n b w g p k). Qed.
Print Assumptions C98_empty_points.

Example C98_empty_points_case dbg : exists g b w g',
  Nat.divide 3 6 /\ 6 = 2 * 3 /\ rgreach dbg (6, 3) b w g /\ (N.of_nat (b + w) < 65535)%N /\ ron (6, 3) (4, 0) /\ position g (4, 0) = None /\
  gm_turn g = White /\ position g (5, 0) = Some Black /\ play dbg g (MPlay 4 0) = Ok g' /\ try_play dbg g (MPlay 4 0) = Ok (g', Accepted) /\ position g' (5, 0) = None /\
  position g (0, 1) = None /\ first_reason (rpoint_reasons (6, 3) (flag_illegal (gm_rule g)) (table_of g) (0, 1)) Accepted.
Proof. exact (case_tall dbg). Qed.

(** C98: legals lists the points of the top square that pass the checks, k times each, and nothing else. *)
Theorem C98_legal_points dbg n b w g p k : fst n = k * snd n -> rgreach dbg n b w g -> (N.of_nat (b + w) < 65535)%N ->
  exists l, legals dbg g = Ok l /\
    (fst p < snd n -> snd p < snd n -> first_reason (rpoint_reasons n (flag_illegal (gm_rule g)) (table_of g) p) Accepted -> times p l = k) /\
    (~ (fst p < snd n /\ snd p < snd n /\ first_reason (rpoint_reasons n (flag_illegal (gm_rule g)) (table_of g) p) Accepted) -> times p l = 0).
Proof. exact (rect_legals dbg n b w g p k). Qed.
Print Assumptions C98_legal_points.

Example C98_legal_points_case dbg : exists g b w g',
  Nat.divide 3 6 /\ 6 = 2 * 3 /\ rgreach dbg (6, 3) b w g /\ (N.of_nat (b + w) < 65535)%N /\ ron (6, 3) (4, 0) /\ position g (4, 0) = None /\
  gm_turn g = White /\ position g (5, 0) = Some Black /\ play dbg g (MPlay 4 0) = Ok g' /\ try_play dbg g (MPlay 4 0) = Ok (g', Accepted) /\ position g' (5, 0) = None /\
  position g (0, 1) = None /\ first_reason (rpoint_reasons (6, 3) (flag_illegal (gm_rule g)) (table_of g) (0, 1)) Accepted.
Proof. exact (case_tall dbg). Qed.

(** C98: so on a 6x3 board a point that can be played is missing from both lists, and an occupied one is in the list of the empty ones. *)
Theorem C98_listing_refuted dbg : exists g b w l l', rgreach dbg (6, 3) b w g /\ pseudo_legals g = Ok l /\ legals dbg g = Ok l' /\
  ron (6, 3) (4, 0) /\ (exists g', try_play dbg g (MPlay 4 0) = Ok (g', Accepted)) /\ (4, 0) ∉ l /\ (4, 0) ∉ l' /\
  position g (0, 0) = Some Black /\ (0, 0) ∈ l.
Proof. exact (rect_listing_refuted dbg). Qed.
Print Assumptions C98_listing_refuted.

(** C98: pseudo_legals_vec lists every empty point once. *)
Theorem C98_empty_points_of_vec dbg n b w g : Nat.divide (snd n) (fst n) -> rgreach dbg n b w g -> fst n * snd n < 256 \/ dbg = false ->
  exists l, pseudo_legals_vec dbg g = Ok l /\ NoDup l /\ forall p, p ∈ l <-> ron n p /\ position g p = None.
Proof. exact (rect_vec dbg n b w g). Qed.
Print Assumptions C98_empty_points_of_vec.

Example C98_empty_points_of_vec_case dbg : exists g b w g',
  Nat.divide 3 6 /\ 6 = 2 * 3 /\ rgreach dbg (6, 3) b w g /\ (N.of_nat (b + w) < 65535)%N /\ ron (6, 3) (4, 0) /\ position g (4, 0) = None /\
  gm_turn g = White /\ position g (5, 0) = Some Black /\ play dbg g (MPlay 4 0) = Ok g' /\ try_play dbg g (MPlay 4 0) = Ok (g', Accepted) /\ position g' (5, 0) = None /\
  position g (0, 1) = None /\ first_reason (rpoint_reasons (6, 3) (flag_illegal (gm_rule g)) (table_of g) (0, 1)) Accepted.
Proof. exact (case_tall dbg). Qed.

(** C98: get_stones lists every stone once. *)
Theorem C98_stones dbg n b w g : Nat.divide (snd n) (fst n) -> rgreach dbg n b w g ->
  exists l, get_stones (gm_goban g) = Ok l /\ NoDup l /\ forall p c, (p, c) ∈ l <-> ron n p /\ position g p = Some c.
Proof. exact (rect_stones dbg n b w g). Qed.
Print Assumptions C98_stones.

Example C98_stones_case dbg : exists g b w g',
  Nat.divide 3 6 /\ 6 = 2 * 3 /\ rgreach dbg (6, 3) b w g /\ (N.of_nat (b + w) < 65535)%N /\ ron (6, 3) (4, 0) /\ position g (4, 0) = None /\
  gm_turn g = White /\ position g (5, 0) = Some Black /\ play dbg g (MPlay 4 0) = Ok g' /\ try_play dbg g (MPlay 4 0) = Ok (g', Accepted) /\ position g' (5, 0) = None /\
  position g (0, 1) = None /\ first_reason (rpoint_reasons (6, 3) (flag_illegal (gm_rule g)) (table_of g) (0, 1)) Accepted.
Proof. exact (case_tall dbg). Qed.

(** C99: territories are what the rules say, in every game, if and only if the board is square. *)
Theorem C99_territory_iff_square dbg h w : 1 <= h <= 19 -> 1 <= w <= 19 -> counts_territory dbg (h, w) <-> h = w.
Proof. exact (territory_iff_square dbg h w). Qed.
Print Assumptions C99_territory_iff_square.

Example C99_territory_iff_square_case : (1 <= 6 <= 19) /\ (1 <= 3 <= 19) /\ Nat.divide 3 6 /\ (1 <= 9 <= 19) /\ ~ Nat.divide 4 9 /\ ~ Nat.divide 9 4.
Proof. exact case_sizes. Qed.

(** C99: so a 6x3 game under Chinese rules in which both sides hold nine points and White gets komi is won by Black, by 6.5. *)
Theorem C99_winner_refuted dbg : exists g b w,
  rgreach dbg (6, 3) b w g /\ gm_rule g = CHINESE /\ gm_passes g = 2 /\
  card (fun p => position g p = Some Black /\ ron (6, 3) p \/ rowned (6, 3) (position g) Black p) 9 /\
  card (fun p => position g p = Some White /\ ron (6, 3) p \/ rowned (6, 3) (position g) White p) 9 /\
  komi g = f32_make 15 (-1) /\
  forall order, (forall l, order l ≡ₚ l) -> outcome order dbg g = Ok (Some (WinnerByScore Black (f32_make 13 (-1)))).
Proof. exact (wrong_winner dbg). Qed.
Print Assumptions C99_winner_refuted.

(** C99: stones are counted right if the width divides the height. *)
Theorem C99_stone_counts dbg n b w g : Nat.divide (snd n) (fst n) -> rgreach dbg n b w g ->
  number_of_stones (gm_goban g) = (rcount n (position g) Black, rcount n (position g) White).
Proof. exact (rect_count dbg n b w g). Qed.
Print Assumptions C99_stone_counts.

Example C99_stone_counts_case dbg : exists g b w g',
  Nat.divide 3 6 /\ 6 = 2 * 3 /\ rgreach dbg (6, 3) b w g /\ (N.of_nat (b + w) < 65535)%N /\ ron (6, 3) (4, 0) /\ position g (4, 0) = None /\
  gm_turn g = White /\ position g (5, 0) = Some Black /\ play dbg g (MPlay 4 0) = Ok g' /\ try_play dbg g (MPlay 4 0) = Ok (g', Accepted) /\ position g' (5, 0) = None /\
  position g (0, 1) = None /\ first_reason (rpoint_reasons (6, 3) (flag_illegal (gm_rule g)) (table_of g) (0, 1)) Accepted.
Proof. exact (case_tall dbg). Qed.

(** C101: groups are the chains, and their liberties are recorded exactly, if the width divides the height. *)
Theorem C101_groups dbg n b w g p : Nat.divide (snd n) (fst n) -> rgreach dbg n b w g -> ron n p -> position g p <> None ->
  (forall q, ron n q -> group_no (gm_goban g) p = group_no (gm_goban g) q <-> rconnected n (position g) p q) /\
  (exists k c l, group_no (gm_goban g) p = Some k /\ position g p = Some c /\
     chain_stones dbg (gm_goban g) k = Ok (List.map (fun q => (q, c)) l) /\ NoDup l /\
     (forall q, q ∈ l <-> ron n q /\ rconnected n (position g) p q)) /\
  exists grp ls, group_of (gm_goban g) p = Some grp /\ group_liberties grp = Ok ls /\ StronglySorted lt ls /\ number_of_liberties grp = length ls /\
    forall i, i ∈ ls <-> exists q, i = index (fst n) q /\ rliberty n (position g) p q.
Proof. exact (rect_groups dbg n b w g p). Qed.
Print Assumptions C101_groups.

Example C101_groups_case dbg : exists g b w g',
  Nat.divide 3 6 /\ 6 = 2 * 3 /\ rgreach dbg (6, 3) b w g /\ (N.of_nat (b + w) < 65535)%N /\ ron (6, 3) (4, 0) /\ position g (4, 0) = None /\
  gm_turn g = White /\ position g (5, 0) = Some Black /\ play dbg g (MPlay 4 0) = Ok g' /\ try_play dbg g (MPlay 4 0) = Ok (g', Accepted) /\ position g' (5, 0) = None /\
  position g (0, 1) = None /\ first_reason (rpoint_reasons (6, 3) (flag_illegal (gm_rule g)) (table_of g) (0, 1)) Accepted.
Proof. exact (case_tall dbg). Qed.

(** C101: [==] compares positions there, and equal boards hash equally. *)
Theorem C101_equality dbg dbg' n b w b' w' g h : Nat.divide (snd n) (fst n) -> rgreach dbg n b w g -> rgreach dbg' n b' w' h ->
  exists v, goban_eq (gm_goban g) (gm_goban h) = Ok v /\ (v = true <-> rsame_pos n (position g) (position h)) /\
    (v = true -> goban_hash (gm_goban g) = goban_hash (gm_goban h)).
Proof. exact (rect_equality dbg dbg' n b w b' w' g h). Qed.
Print Assumptions C101_equality.

Example C101_equality_case dbg : exists g b w g',
  Nat.divide 3 6 /\ 6 = 2 * 3 /\ rgreach dbg (6, 3) b w g /\ (N.of_nat (b + w) < 65535)%N /\ ron (6, 3) (4, 0) /\ position g (4, 0) = None /\
  gm_turn g = White /\ position g (5, 0) = Some Black /\ play dbg g (MPlay 4 0) = Ok g' /\ try_play dbg g (MPlay 4 0) = Ok (g', Accepted) /\ position g' (5, 0) = None /\
  position g (0, 1) = None /\ first_reason (rpoint_reasons (6, 3) (flag_illegal (gm_rule g)) (table_of g) (0, 1)) Accepted.
Proof. exact (case_tall dbg). Qed.

(** C101: in to_vec the point of row i and column j is at i times the height plus j, and no stone is shown elsewhere. *)
Theorem C101_to_vec dbg n b w g : Nat.divide (snd n) (fst n) -> rgreach dbg n b w g ->
  exists v, to_vec (gm_goban g) = Ok v /\ length v = 361 /\
    (forall i j, ron n (i, j) -> v !! (i * fst n + j) = Some (position g (i, j))) /\
    (forall k c, v !! k = Some (Some c) -> exists i j, ron n (i, j) /\ k = i * fst n + j).
Proof. exact (rect_to_vec dbg n b w g). Qed.
Print Assumptions C101_to_vec.

Example C101_to_vec_case dbg : exists g b w g',
  Nat.divide 3 6 /\ 6 = 2 * 3 /\ rgreach dbg (6, 3) b w g /\ (N.of_nat (b + w) < 65535)%N /\ ron (6, 3) (4, 0) /\ position g (4, 0) = None /\
  gm_turn g = White /\ position g (5, 0) = Some Black /\ play dbg g (MPlay 4 0) = Ok g' /\ try_play dbg g (MPlay 4 0) = Ok (g', Accepted) /\ position g' (5, 0) = None /\
  position g (0, 1) = None /\ first_reason (rpoint_reasons (6, 3) (flag_illegal (gm_rule g)) (table_of g) (0, 1)) Accepted.
Proof. exact (case_tall dbg). Qed.

(** C101: in matrix row i of a board k times as high as wide is row i times k. *)
Theorem C101_matrix dbg n b w g k : (fst n = k * snd n)%nat -> rgreach dbg n b w g ->
  exists m, matrix (gm_goban g) = Ok m /\ length m = 361 / snd n /\ (forall row, row ∈ m -> length row = snd n) /\
    (forall i j, ron n (i, j) -> exists row, m !! (i * k) = Some row /\ row !! j = Some (position g (i, j))) /\
    (forall r row c, m !! r = Some row -> Some c ∈ row -> exists i, i < fst n /\ r = i * k).
Proof. exact (rect_matrix dbg n b w g k). Qed.
Print Assumptions C101_matrix.

Example C101_matrix_case dbg : exists g b w g',
  Nat.divide 3 6 /\ 6 = 2 * 3 /\ rgreach dbg (6, 3) b w g /\ (N.of_nat (b + w) < 65535)%N /\ ron (6, 3) (4, 0) /\ position g (4, 0) = None /\
  gm_turn g = White /\ position g (5, 0) = Some Black /\ play dbg g (MPlay 4 0) = Ok g' /\ try_play dbg g (MPlay 4 0) = Ok (g', Accepted) /\ position g' (5, 0) = None /\
  position g (0, 1) = None /\ first_reason (rpoint_reasons (6, 3) (flag_illegal (gm_rule g)) (table_of g) (0, 1)) Accepted.
Proof. exact (case_tall dbg). Qed.

(** C101: so on a 6x3 board a stone of the second row is shown in the third row of the matrix. *)
Theorem C101_matrix_rows_refuted dbg : exists g b w m, rgreach dbg (6, 3) b w g /\ position g (1, 0) = Some Black /\ matrix (gm_goban g) = Ok m /\
  m !! 1 = Some [None; None; None] /\ m !! 2 = Some [Some Black; None; None].
Proof. exact (rect_matrix_refuted dbg). Qed.
Print Assumptions C101_matrix_rows_refuted.

(** C101: the printout has one line per row and shows each stone. *)
Theorem C101_printout dbg n b w g : Nat.divide (snd n) (fst n) -> rgreach dbg n b w g ->
  exists rows, pretty_string (gm_goban g) = Ok (List.concat rows) /\ length rows = fst n /\
  forall i, i < fst n -> exists row, rows !! i = Some (row ++ [NewLine]) /\ length row = snd n /\
    forall j, j < snd n -> exists x, row !! j = Some x /\ x <> NewLine /\
      (x = BlackDisc <-> position g (i, j) = Some Black) /\ (x = WhiteDisc <-> position g (i, j) = Some White).
Proof. exact (rect_printout dbg n b w g). Qed.
Print Assumptions C101_printout.

Example C101_printout_case dbg : exists g b w g',
  Nat.divide 3 6 /\ 6 = 2 * 3 /\ rgreach dbg (6, 3) b w g /\ (N.of_nat (b + w) < 65535)%N /\ ron (6, 3) (4, 0) /\ position g (4, 0) = None /\
  gm_turn g = White /\ position g (5, 0) = Some Black /\ play dbg g (MPlay 4 0) = Ok g' /\ try_play dbg g (MPlay 4 0) = Ok (g', Accepted) /\ position g' (5, 0) = None /\
  position g (0, 1) = None /\ first_reason (rpoint_reasons (6, 3) (flag_illegal (gm_rule g)) (table_of g) (0, 1)) Accepted.
Proof. exact (case_tall dbg). Qed.

(** C102: the text is three bytes per point and one per line; the bytes of a point are those of the black or white disc in UTF-8 exactly if such a stone stands there. *)
Theorem C102_printed_bytes dbg n b w g : Nat.divide (snd n) (fst n) -> rgreach dbg n b w g ->
  exists t, pretty_bytes (gm_goban g) = Ok t /\ length t = fst n * (3 * snd n + 1) /\
    (forall i, i < fst n -> t !! (i * (3 * snd n + 1) + 3 * snd n) = Some 10%N) /\
    (forall i j, ron n (i, j) -> let u := take 3 (drop (i * (3 * snd n + 1) + 3 * j) t) in
       (u = [226; 151; 143]%N <-> position g (i, j) = Some Black) /\ (u = [226; 151; 139]%N <-> position g (i, j) = Some White)).
Proof. exact (rect_text dbg n b w g). Qed.
Print Assumptions C102_printed_bytes.

Example C102_printed_bytes_case dbg : exists g b w g',
  Nat.divide 3 6 /\ 6 = 2 * 3 /\ rgreach dbg (6, 3) b w g /\ (N.of_nat (b + w) < 65535)%N /\ ron (6, 3) (4, 0) /\ position g (4, 0) = None /\
  gm_turn g = White /\ position g (5, 0) = Some Black /\ play dbg g (MPlay 4 0) = Ok g' /\ try_play dbg g (MPlay 4 0) = Ok (g', Accepted) /\ position g' (5, 0) = None /\
  position g (0, 1) = None /\ first_reason (rpoint_reasons (6, 3) (flag_illegal (gm_rule g)) (table_of g) (0, 1)) Accepted.
Proof. exact (case_tall dbg). Qed.
