(** Properties of the ways to look at a board: C32-C37, C40, C45, C46 *)
From stdpp Require Import relations sorting strings.
From Verif Require Import Spec Reach Observe MoreSpec Samples GameFacts ViewFacts PropFacts CaseFacts MoreClaims.
Local Notation length := Datatypes.length.
Open Scope nat_scope.

(** C32: stones and empty points are enumerated completely, in row-major order, each once. *)
Theorem C32_enumerations dbg n m g : breach dbg n m g ->
  exists ss es, get_stones g = Ok ss /\ get_empty_coords g = Ok es /\
    StronglySorted row_major ss.*1 /\ StronglySorted row_major es /\
    (forall p c, (p, c) ∈ ss <-> on n p /\ pos_of g p = Some c) /\
    (forall p, p ∈ es <-> on n p /\ pos_of g p = None) /\
    ss.*1 ++ es ≡ₚ points n.
Proof. exact (fun H => enumerations n g (breach_wf dbg n m g H)). Qed.
Print Assumptions C32_enumerations.

Example C32_enumerations_case dbg : exists m g,
  breach dbg 9 m g /\ on 9 (1, 2) /\ pos_of g (1, 2) = Some Black /\ pos_of g (1, 1) = None /\ pos_of g (2, 2) = Some White /\
  ~ connected 9 (pos_of g) (1, 2) (2, 2).
Proof. exact (case_board dbg). Qed.

(** C33: [pseudo_legals_vec] agrees with [pseudo_legals] up to 15 x 15 and in release builds, and panics in debug builds from 16 x 16 on. *)
Theorem C33_pseudo_legals_vec_exact dbg n b w g : greach dbg n b w g ->
  ((n <= 15)%nat \/ dbg = false -> exists l, pseudo_legals_vec dbg g = Ok l /\ pseudo_legals g = Ok l) /\
  ((16 <= n)%nat -> dbg = true -> pseudo_legals_vec dbg g = Panic).
Proof. exact (fun H => vec_ok dbg n g (breach_wf dbg n (b + w) (gm_goban g) (br_game dbg n b w g H))). Qed.
Print Assumptions C33_pseudo_legals_vec_exact.

Example C33_pseudo_legals_vec_exact_case dbg : exists g b w,
  greach dbg 9 b w g /\ on 9 (1, 2) /\ position g (1, 2) = None /\ (N.of_nat (b + w) < 65535)%N /\ ~ no_slot_left g /\ play dbg g (MPlay 1 2) <> Panic /\
  position g (1, 1) = Some White /\ gm_turn g = Black /\ gm_passes g = 0 /\ captures 9 (position g) (1, 2) Black.
Proof. exact (case_capture dbg). Qed.

(** C33: on the 16 x 16 board a debug build panics. *)
Theorem C33_vec_equals_iterator_refuted : exists g b w l, greach true 16 b w g /\ pseudo_legals g = Ok l /\ pseudo_legals_vec true g = Panic.
Proof. exact vec_refuted. Qed.
Print Assumptions C33_vec_equals_iterator_refuted.

(** C34: [get_empty_idx] lists the occupied points. *)
Theorem C34_get_empty_idx_exact dbg n m g : breach dbg n m g ->
  StronglySorted lt (get_empty_idx g) /\
  forall i, i ∈ get_empty_idx g <-> exists p, on n p /\ i = index n p /\ pos_of g p <> None.
Proof. exact (fun H => empty_idx_ok n g (breach_wf dbg n m g H)). Qed.
Print Assumptions C34_get_empty_idx_exact.

Example C34_get_empty_idx_exact_case dbg : exists m g,
  breach dbg 9 m g /\ on 9 (1, 2) /\ pos_of g (1, 2) = Some Black /\ pos_of g (1, 1) = None /\ pos_of g (2, 2) = Some White /\
  ~ connected 9 (pos_of g) (1, 2) (2, 2).
Proof. exact (case_board dbg). Qed.

(** C34: [get_empty_idx] yields an occupied point and misses the empty ones. *)
Theorem C34_get_empty_idx_refuted dbg : exists m g,
  breach dbg 3 m g /\ pos_of g (1, 1) = Some Black /\ pos_of g (0, 0) = None /\ get_empty_idx g = [index 3 (1, 1)].
Proof. exact (empty_idx_refuted dbg). Qed.
Print Assumptions C34_get_empty_idx_refuted.

(** C35: [get_coords_by_color] looks at the first n*n mod 256 points only, takes every point for an empty one, and panics in debug builds from 16 x 16 on. *)
Theorem C35_points_by_colour_exact dbg n m g mc : breach dbg n m g ->
  ((16 <= n)%nat -> dbg = true -> get_coords_by_color dbg g mc = Panic /\ get_stones_by_color dbg g mc = Panic) /\
  ((n <= 15)%nat \/ dbg = false -> exists l,
     get_coords_by_color dbg g mc = Ok l /\ get_stones_by_color dbg g mc = Ok (List.map (fun p => (p, mc)) l) /\
     StronglySorted row_major l /\
     forall p, p ∈ l <-> on n p /\ (index n p < (n * n) mod 256)%nat /\ (mc = None \/ pos_of g p = mc)).
Proof. exact (fun H => by_color_api dbg n g mc (breach_wf dbg n m g H)). Qed.
Print Assumptions C35_points_by_colour_exact.

Example C35_points_by_colour_exact_case dbg : exists m g,
  breach dbg 9 m g /\ on 9 (1, 2) /\ pos_of g (1, 2) = Some Black /\ pos_of g (1, 1) = None /\ pos_of g (2, 2) = Some White /\
  ~ connected 9 (pos_of g) (1, 2) (2, 2).
Proof. exact (case_board dbg). Qed.

(** C35: on the 16 x 16 board a debug build panics and a release build finds no stone. *)
Theorem C35_points_by_colour_refuted : exists m g m' g',
  breach true 16 m g /\ get_coords_by_color true g (Some Black) = Panic /\
  breach false 16 m' g' /\ pos_of g' (1, 1) = Some Black /\ get_coords_by_color false g' (Some Black) = Ok [].
Proof. exact by_color_refuted. Qed.
Print Assumptions C35_points_by_colour_refuted.

(** C35: occupied points are listed as empty. *)
Theorem C35_empty_points_refuted dbg : exists m g l,
  breach dbg 3 m g /\ pos_of g (1, 1) = Some Black /\ get_coords_by_color dbg g None = Ok l /\ (1, 1) ∈ l.
Proof. exact (by_empty_refuted dbg). Qed.
Print Assumptions C35_empty_points_refuted.

(** C36: a list of n*n colours gives the n x n board that shows it. *)
Theorem C36_from_list dbg n v : (1 <= n <= 19)%nat -> length v = (n * n)%nat ->
  exists g, goban_from dbg v = Ok g /\ gsize g = (n, n) /\ forall p, on n p -> pos_of g p = mjoin (v !! index n p).
Proof. exact (claim_from dbg n v). Qed.
Print Assumptions C36_from_list.

Example C36_from_list_case : 1 <= 2 <= 19 /\ length [Some Black; None; None; Some White] = 2 * 2.
Proof. exact case_from. Qed.

(** C36: the round trip gives a 19 x 19 board, equal to the original exactly for size 19. *)
Theorem C36_round_trip_exact dbg n m g : breach dbg n m g ->
  exists v b, to_vec g = Ok v /\ goban_from dbg v = Ok b /\ gsize b = (19, 19)%nat /\ goban_eq b g = Ok (n =? 19)%nat.
Proof. exact (fun H => round_trip dbg n g (breach_wf dbg n m g H)). Qed.
Print Assumptions C36_round_trip_exact.

Example C36_round_trip_exact_case dbg : exists m g,
  breach dbg 9 m g /\ on 9 (1, 2) /\ pos_of g (1, 2) = Some Black /\ pos_of g (1, 1) = None /\ pos_of g (2, 2) = Some White /\
  ~ connected 9 (pos_of g) (1, 2) (2, 2).
Proof. exact (case_board dbg). Qed.

(** C36: the round trip of the 9 x 9 board differs from it. *)
Theorem C36_round_trip_refuted dbg : exists m g v b,
  breach dbg 9 m g /\ to_vec g = Ok v /\ goban_from dbg v = Ok b /\ goban_eq b g = Ok false.
Proof. exact (round_trip_refuted dbg). Qed.
Print Assumptions C36_round_trip_refuted.

(** C37: [matrix] shows the board in its first n rows and adds empty rows up to 361 points. *)
Theorem C37_matrix_exact dbg n m0 g : breach dbg n m0 g ->
  exists m, matrix g = Ok m /\ length m = (361 / n)%nat /\ (length m = n <-> n = 19%nat) /\
    (forall row, row ∈ m -> length row = n) /\
    (forall i j, on n (i, j) -> exists row, m !! i = Some row /\ row !! j = Some (pos_of g (i, j))) /\
    (forall i row x, (n <= i)%nat -> m !! i = Some row -> x ∈ row -> x = None).
Proof. exact (claim_matrix dbg n m0 g). Qed.
Print Assumptions C37_matrix_exact.

Example C37_matrix_exact_case dbg : exists m g,
  breach dbg 9 m g /\ on 9 (1, 2) /\ pos_of g (1, 2) = Some Black /\ pos_of g (1, 1) = None /\ pos_of g (2, 2) = Some White /\
  ~ connected 9 (pos_of g) (1, 2) (2, 2).
Proof. exact (case_board dbg). Qed.

(** C37: for the 9 x 9 board there are 40 rows. *)
Theorem C37_matrix_rows_refuted dbg : exists m g r, breach dbg 9 m g /\ matrix g = Ok r /\ length r = 40.
Proof. exact (matrix_refuted dbg). Qed.
Print Assumptions C37_matrix_rows_refuted.

(** C40: coordinates and indices of a square board correspond one to one, in row-major order. *)
Theorem C40_coordinates n : (1 <= n <= 19)%nat ->
  (forall p, on n p -> (two_to_1dim (n, n) p < n * n)%nat /\ one_to_2dim (n, n) (two_to_1dim (n, n) p) = Ok p) /\
  (forall i, (i < n * n)%nat -> exists p, one_to_2dim (n, n) i = Ok p /\ on n p /\ two_to_1dim (n, n) p = i) /\
  (forall p q, on n p -> on n q -> (two_to_1dim (n, n) p < two_to_1dim (n, n) q)%nat <-> row_major p q).
Proof. exact (coords_bijection n). Qed.
Print Assumptions C40_coordinates.

Example C40_coordinates_case : 1 <= 9 <= 19 /\ on 9 (3, 8) /\ on 9 (4, 8) /\ adj (3, 8) (4, 8).
Proof. exact case_point. Qed.

(** C40: the neighbours of a point are the adjacent points on the board, each once. *)
Theorem C40_neighbours dbg n p : (1 <= n <= 19)%nat -> on n p ->
  exists l, valid_coords dbg p (n, n) = Ok l /\ NoDup l /\ (forall q, q ∈ l <-> on n q /\ adj p q) /\
    neighbors_idx dbg (n, n) (two_to_1dim (n, n) p) = Ok (List.map (two_to_1dim (n, n)) l).
Proof. exact (neighbours_api dbg n p). Qed.
Print Assumptions C40_neighbours.

Example C40_neighbours_case : 1 <= 9 <= 19 /\ on 9 (3, 8) /\ on 9 (4, 8) /\ adj (3, 8) (4, 8).
Proof. exact case_point. Qed.

(** C45: the printout has one line per row and shows each stone. *)
Theorem C45_printout dbg n m g : breach dbg n m g -> exists rows, pretty_string g = Ok (List.concat rows) /\ length rows = n /\
  forall i, (i < n)%nat -> exists row, rows !! i = Some (row ++ [NewLine]) /\ length row = n /\
    forall j, (j < n)%nat -> exists x, row !! j = Some x /\ x <> NewLine /\
      (x = BlackDisc <-> pos_of g (i, j) = Some Black) /\ (x = WhiteDisc <-> pos_of g (i, j) = Some White).
Proof. exact (fun H => pretty_rows n g (breach_wf dbg n m g H)). Qed.
Print Assumptions C45_printout.

Example C45_printout_case dbg : exists m g,
  breach dbg 9 m g /\ on 9 (1, 2) /\ pos_of g (1, 2) = Some Black /\ pos_of g (1, 1) = None /\ pos_of g (2, 2) = Some White /\
  ~ connected 9 (pos_of g) (1, 2) (2, 2).
Proof. exact (case_board dbg). Qed.

(** C45: the lines of the symbol at an empty point run towards its neighbours on the board. *)
Theorem C45_grid dbg n m g : breach dbg n m g -> 2 <= n ->
  exists rows, pretty_string g = Ok (List.concat rows) /\
    forall i j, i < n -> j < n -> exists row x, rows !! i = Some row /\ row !! j = Some x /\
      (pos_of g (i, j) = None ->
       arms x = Some (bool_decide (0 < i), bool_decide (S i < n), bool_decide (0 < j), bool_decide (S j < n))).
Proof. exact (printed_grid dbg n m g). Qed.
Print Assumptions C45_grid.

Example C45_grid_case dbg : exists m g,
  breach dbg 9 m g /\ on 9 (1, 2) /\ pos_of g (1, 2) = Some Black /\ pos_of g (1, 1) = None /\ pos_of g (2, 2) = Some White /\
  ~ connected 9 (pos_of g) (1, 2) (2, 2).
Proof. exact (case_board dbg). Qed.

(** C45: boards with the same printout show the same position. *)
Theorem C45_printout_determines_position dbg n m m' k a b : breach dbg n m a -> breach dbg k m' b -> pretty_string a = pretty_string b -> n = k /\ same_pos n (pos_of a) (pos_of b).
Proof. exact (fun A B => pretty_inj n k a b (breach_wf dbg n m a A) (breach_wf dbg k m' b B)). Qed.
Print Assumptions C45_printout_determines_position.

Example C45_printout_determines_position_case : exists m m' a b,
  breach true 9 m a /\ breach false 9 m' b /\ same_pos 9 (pos_of a) (pos_of b) /\ pos_of a (2, 2) = Some Black /\
  group_no a (3, 3) = Some 1 /\ group_no b (3, 3) = Some 0.
Proof. exact case_orders. Qed.

(** C46: the liberty bitset behaves as a set of the indices below 368. *)
Theorem C46_bitset l : bits_ok l ->
  (forall j, (j < 368)%nat -> exists v, lib_get j l = Ok v) /\
  (forall v j, (368 <= j)%nat -> lib_get j l = Panic /\ lib_set v j l = Panic) /\
  (forall v j, (j < 368)%nat -> exists l', lib_set v j l = Ok l' /\ bits_ok l' /\ lib_get j l' = Ok v /\
     forall i, (i < 368)%nat -> i <> j -> lib_get i l' = lib_get i l) /\
  (forall l2, bits_ok l2 -> bits_ok (lib_merge l l2) /\
     forall j, (j < 368)%nat -> (lib_get j (lib_merge l l2) = Ok true <-> lib_get j l = Ok true \/ lib_get j l2 = Ok true)) /\
  exists ones, lib_iter_ones l = Ok ones /\ StronglySorted lt ones /\
    (forall j, j ∈ ones <-> (j < 368)%nat /\ lib_get j l = Ok true) /\
    lib_count_ones l = length ones /\ (lib_any l = true <-> ones <> []).
Proof. exact (bitset_api l). Qed.
Print Assumptions C46_bitset.

Example C46_bitset_case : exists l l', bits_ok EMPTY_LIBERTIES /\ lib_set true 0 EMPTY_LIBERTIES = Ok l /\ lib_set true 360 l = Ok l' /\ bits_ok l' /\
  lib_iter_ones l' = Ok [0; 360].
Proof. exact case_bits. Qed.
