(** Properties of boards and of the capture rule: C01-C09, C29-C31, C42, C47, C54, C57, C58, C60, C64 *)
From stdpp Require Import relations sorting strings.
From Verif Require Import Spec Reach Observe Ops SymSpec DeadStones Samples GameFacts ApiFacts RefuteFacts ClaimFacts PropFacts SymFacts LongFacts ZobristFacts HashFacts ReprFacts OccupiedFacts CaseFacts HashClaims MoreClaims TightClaims.
Local Notation length := Datatypes.length.
Open Scope nat_scope.

(** C01: playing on an empty point follows the capture rule of Go; the ko point is the stone captured alone. *)
Theorem C01_play_capture_rule dbg n b w g x y :
  greach dbg n b w g -> on n (x, y) -> position g (x, y) = None -> play dbg g (MPlay x y) <> Panic ->
  exists g', play dbg g (MPlay x y) = Ok g' /\
    go_move (negb (forbids_suicide (gm_rule g))) n (position g) (x, y) (gm_turn g) (position g') /\
    gm_turn g' = opp (gm_turn g) /\ gm_passes g' = 0%nat /\ gm_outcome g' = gm_outcome g /\
    gm_rule g' = gm_rule g /\ gm_handicap g' = gm_handicap g /\ gsize (gm_goban g') = gsize (gm_goban g) /\
    (forall q, gm_ko_point g' = Some q <-> captures_only n (position g) (x, y) (gm_turn g) q).
Proof. exact (claim_capture dbg n b w g x y). Qed.
Print Assumptions C01_play_capture_rule.

Example C01_play_capture_rule_case dbg : exists g b w,
  greach dbg 9 b w g /\ on 9 (1, 2) /\ position g (1, 2) = None /\ (N.of_nat (b + w) < 65535)%N /\ ~ no_slot_left g /\ play dbg g (MPlay 1 2) <> Panic /\
  position g (1, 1) = Some White /\ gm_turn g = Black /\ gm_passes g = 0 /\ captures 9 (position g) (1, 2) Black.
Proof. exact (case_capture dbg). Qed.

(** C02: groups are the connected components. *)
Theorem C02_groups_are_components dbg n m g p : breach dbg n m g -> on n p -> pos_of g p <> None ->
  (forall q, on n q -> group_no g p = group_no g q <-> connected n (pos_of g) p q) /\
  exists k c l, group_no g p = Some k /\ pos_of g p = Some c /\
    chain_stones dbg g k = Ok (List.map (fun q => (q, c)) l) /\ NoDup l /\
    forall q, q ∈ l <-> on n q /\ connected n (pos_of g) p q.
Proof. exact (claim_components dbg n m g p). Qed.
Print Assumptions C02_groups_are_components.

Example C02_groups_are_components_case dbg : exists m g k grp,
  breach dbg 9 m g /\ chains g !! k = Some (Some grp) /\ g_num_stones grp = 2 /\ group_no g (2, 2) = Some k /\ group_no g (2, 3) = Some k /\
  pos_of g (3, 3) = Some White.
Proof. exact (case_group dbg). Qed.

(** C03: the recorded liberties are the empty points next to the chain. *)
Theorem C03_liberties_exact dbg n m g p : breach dbg n m g -> on n p -> pos_of g p <> None ->
  exists grp l, group_of g p = Some grp /\ group_liberties grp = Ok l /\ StronglySorted lt l /\
    (forall i, i ∈ l <-> exists q, i = index n q /\ liberty n (pos_of g) p q) /\
    number_of_liberties grp = length l /\
    (is_dead grp = true <-> ~ breathes n (pos_of g) p) /\
    (is_atari grp = true <-> card (liberty n (pos_of g) p) 1) /\
    (forall q, on n q -> exists v, contains_liberty grp (index n q) = Ok v /\ (v = true <-> liberty n (pos_of g) p q)).
Proof. exact (claim_liberties dbg n m g p). Qed.
Print Assumptions C03_liberties_exact.

Example C03_liberties_exact_case dbg : exists m g,
  breach dbg 9 m g /\ on 9 (1, 2) /\ pos_of g (1, 2) = Some Black /\ pos_of g (1, 1) = None /\ pos_of g (2, 2) = Some White /\
  ~ connected 9 (pos_of g) (1, 2) (2, 2).
Proof. exact (case_board dbg). Qed.

(** C04: the stone counts agree with the board. *)
Theorem C04_stone_counts dbg n m g : breach dbg n m g ->
  number_of_stones g = (count n (pos_of g) Black, count n (pos_of g) White) /\
  forall p grp, on n p -> group_of g p = Some grp -> card (fun q => on n q /\ connected n (pos_of g) p q) (g_num_stones grp).
Proof. exact (claim_counts dbg n m g). Qed.
Print Assumptions C04_stone_counts.

Example C04_stone_counts_case dbg : exists m g k grp,
  breach dbg 9 m g /\ chains g !! k = Some (Some grp) /\ g_num_stones grp = 2 /\ group_no g (2, 2) = Some k /\ group_no g (2, 3) = Some k /\
  pos_of g (3, 3) = Some White.
Proof. exact (case_group dbg). Qed.

(** C05: the hash is the exclusive or of the keys of the stones, hence a function of the position. *)
Theorem C05_hash_of_position dbg dbg' n m m' a b : breach dbg n m a -> breach dbg' n m' b ->
  zobrist_hash a = position_key n (pos_of a) /\
  (same_pos n (pos_of a) (pos_of b) -> zobrist_hash a = zobrist_hash b).
Proof. exact (claim_hash dbg dbg' n m m' a b). Qed.
Print Assumptions C05_hash_of_position.

Example C05_hash_of_position_case : exists m m' a b,
  breach true 9 m a /\ breach false 9 m' b /\ same_pos 9 (pos_of a) (pos_of b) /\ pos_of a (2, 2) = Some Black /\
  group_no a (3, 3) = Some 1 /\ group_no b (3, 3) = Some 0.
Proof. exact case_orders. Qed.

(** C06: [==] compares positions, and equal boards hash equally. *)
Theorem C06_equality_is_position_equality d1 d2 n m1 m2 a b : breach d1 n m1 a -> breach d2 n m2 b ->
  exists v, goban_eq a b = Ok v /\ (v = true <-> same_pos n (pos_of a) (pos_of b)) /\
            (v = true -> goban_hash a = goban_hash b).
Proof. exact (claim_equality d1 d2 n m1 m2 a b). Qed.
Print Assumptions C06_equality_is_position_equality.

Example C06_equality_is_position_equality_case : exists m m' a b,
  breach true 9 m a /\ breach false 9 m' b /\ same_pos 9 (pos_of a) (pos_of b) /\ pos_of a (2, 2) = Some Black /\
  group_no a (3, 3) = Some 1 /\ group_no b (3, 3) = Some 0.
Proof. exact case_orders. Qed.

(** C06: [==] is an equivalence relation. *)
Theorem C06_equality_is_equivalence d1 d2 d3 n m1 m2 m3 a b c : breach d1 n m1 a -> breach d2 n m2 b -> breach d3 n m3 c ->
  goban_eq a a = Ok true /\
  goban_eq a b = goban_eq b a /\
  (goban_eq a b = Ok true -> goban_eq b c = Ok true -> goban_eq a c = Ok true).
Proof. exact (claim_equivalence d1 d2 d3 n m1 m2 m3 a b c). Qed.
Print Assumptions C06_equality_is_equivalence.

Example C06_equality_is_equivalence_case : exists m m' a b,
  breach true 9 m a /\ breach false 9 m' b /\ same_pos 9 (pos_of a) (pos_of b) /\ pos_of a (2, 2) = Some Black /\
  group_no a (3, 3) = Some 1 /\ group_no b (3, 3) = Some 0.
Proof. exact case_orders. Qed.

(** C07: playing on an empty point neither panics nor loops while fewer than 65535 stones were put. *)
Theorem C07_no_panic dbg n b w g x y :
  greach dbg n b w g -> on n (x, y) -> position g (x, y) = None -> (N.of_nat (b + w) < 65535)%N ->
  (exists g', play dbg g (MPlay x y) = Ok g') /\
  (exists v, play_for_verification dbg g (x, y) = Ok v) /\
  (forall c, exists gb, push dbg (gm_goban g) (x, y) c = Ok gb) /\
  (forall m, (forall x y, m = MPlay x y -> on n (x, y)) -> exists r, try_play dbg g m = Ok r).
Proof. exact (claim_no_panic dbg n b w g x y). Qed.
Print Assumptions C07_no_panic.

Example C07_no_panic_case dbg : exists g b w,
  greach dbg 9 b w g /\ on 9 (1, 2) /\ position g (1, 2) = None /\ (N.of_nat (b + w) < 65535)%N /\ ~ no_slot_left g /\ play dbg g (MPlay 1 2) <> Panic /\
  position g (1, 1) = Some White /\ gm_turn g = Black /\ gm_passes g = 0 /\ captures 9 (position g) (1, 2) Black.
Proof. exact (case_capture dbg). Qed.

(** C08: playing on an empty point panics exactly when a new group slot is needed and 65535 slots are in use. *)
Theorem C08_panics_exactly dbg n b w g x y :
  greach dbg n b w g -> on n (x, y) -> position g (x, y) = None ->
  play dbg g (MPlay x y) <> Diverge /\
  (play dbg g (MPlay x y) = Panic <->
   N.of_nat (length (chains (gm_goban g))) = 65535%N /\ ~ one_friend n (position g) (x, y) (gm_turn g)).
Proof. exact (claim_panics_exactly dbg n b w g x y). Qed.
Print Assumptions C08_panics_exactly.

Example C08_panics_exactly_case dbg : exists g b w,
  greach dbg 9 b w g /\ on 9 (1, 2) /\ position g (1, 2) = None /\ (N.of_nat (b + w) < 65535)%N /\ ~ no_slot_left g /\ play dbg g (MPlay 1 2) <> Panic /\
  position g (1, 1) = Some White /\ gm_turn g = Black /\ gm_passes g = 0 /\ captures 9 (position g) (1, 2) Black.
Proof. exact (case_capture dbg). Qed.

(** C08: a legal game cannot go on for ever: one on the 2 x 2 board ends in a panic. *)
Theorem C08_goes_on_for_ever_refuted dbg : exists g x y,
  lreach dbg 2 g /\ on 2 (x, y) /\ try_play dbg g (MPlay x y) = Panic.
Proof. exact (long_game_panics dbg). Qed.
Print Assumptions C08_goes_on_for_ever_refuted.

(** C09: debug and release builds agree. *)
Theorem C09_builds_agree dbg n b w g : greach dbg n b w g ->
  greach (negb dbg) n b w g /\
  (forall x y, on n (x, y) -> position g (x, y) = None -> play true g (MPlay x y) = play false g (MPlay x y)) /\
  (forall m, (forall x y, m = MPlay x y -> on n (x, y)) -> try_play true g m = try_play false g m) /\
  (forall flags, legals_by true g flags = legals_by false g flags) /\
  (forall pts, NoDup pts -> (forall p, p ∈ pts -> on n p /\ position g p = None) ->
     put_handicap true g pts = put_handicap false g pts).
Proof. exact (claim_builds dbg n b w g). Qed.
Print Assumptions C09_builds_agree.

Example C09_builds_agree_case dbg : exists g b w,
  greach dbg 9 b w g /\ on 9 (1, 2) /\ position g (1, 2) = None /\ (N.of_nat (b + w) < 65535)%N /\ ~ no_slot_left g /\ play dbg g (MPlay 1 2) <> Panic /\
  position g (1, 1) = Some White /\ gm_turn g = Black /\ gm_passes g = 0 /\ captures 9 (position g) (1, 2) Black.
Proof. exact (case_capture dbg). Qed.

(** C29: the order in which stones are pushed does not matter. *)
Theorem C29_push_order dbg n g l l' m : breach dbg n m g -> l ≡ₚ l' -> NoDup l.*1 ->
  (forall s, s ∈ l -> on n (fst s) /\ pos_of g (fst s) = None) -> (N.of_nat (m + length l) <= 65535)%N ->
  exists a b,
    foldM (fun g s => push_stone dbg g s) l g = Ok a /\ foldM (fun g s => push_stone dbg g s) l' g = Ok b /\
    (forall p c, on n p -> pos_of a p = Some c <-> (p, c) ∈ l \/ pos_of g p = Some c) /\
    goban_eq a b = Ok true /\ zobrist_hash a = zobrist_hash b /\ same_groups n a b.
Proof. exact (push_order dbg n g l l' m). Qed.
Print Assumptions C29_push_order.

Example C29_push_order_case dbg : exists g m,
  breach dbg 9 m g /\ [((0, 0), Black); ((0, 1), White); ((4, 4), Black)] ≡ₚ [((4, 4), Black); ((0, 0), Black); ((0, 1), White)] /\
  NoDup ([((0, 0), Black); ((0, 1), White); ((4, 4), Black)] : list stone).*1 /\
  (forall s, s ∈ ([((0, 0), Black); ((0, 1), White); ((4, 4), Black)] : list stone) -> on 9 (fst s) /\ pos_of g (fst s) = None) /\
  (N.of_nat (m + 3) <= 65535)%N /\ pos_of g (1, 1) = Some Black.
Proof. exact (case_push_order dbg). Qed.

(** C29: [push_many] puts a stone of the given colour on each of the points, whatever their order. *)
Theorem C29_push_many dbg n g pts pts' c m : breach dbg n m g -> pts ≡ₚ pts' -> NoDup pts ->
  (forall p, p ∈ pts -> on n p /\ pos_of g p = None) -> (N.of_nat (m + length pts) <= 65535)%N ->
  exists a b,
    push_many dbg g pts c = Ok a /\ push_many dbg g pts' c = Ok b /\
    (forall p, on n p -> (p ∈ pts -> pos_of a p = Some c) /\ (p ∉ pts -> pos_of a p = pos_of g p)) /\
    goban_eq a b = Ok true /\ zobrist_hash a = zobrist_hash b /\ same_groups n a b.
Proof. exact (push_many_order dbg n g pts pts' c m). Qed.
Print Assumptions C29_push_many.

Example C29_push_many_case dbg : exists g m,
  breach dbg 9 m g /\ [(0, 0); (0, 1); (4, 4)] ≡ₚ [(4, 4); (0, 0); (0, 1)] /\ NoDup ([(0, 0); (0, 1); (4, 4)] : list coord) /\
  (forall p, p ∈ ([(0, 0); (0, 1); (4, 4)] : list coord) -> on 9 p /\ pos_of g p = None) /\
  (N.of_nat (m + 3) <= 65535)%N /\ pos_of g (1, 1) = Some Black.
Proof. exact (case_push_many dbg). Qed.

(** C30: removing a group removes exactly its stones and gives the points back as liberties. *)
Theorem C30_remove_chain dbg n m g k grp : breach dbg n m g -> chains g !! k = Some (Some grp) ->
  exists g', remove_chain dbg g k = Ok g' /\
    (forall p, on n p -> group_no g p = Some k -> pos_of g' p = None /\ group_no g' p = None) /\
    (forall p, on n p -> group_no g p <> Some k -> pos_of g' p = pos_of g p /\ group_no g' p = group_no g p) /\
    chains g' !! k = Some None /\ length (chains g') = length (chains g) /\
    (forall k' grp', k' <> k -> chains g !! k' = Some (Some grp') -> exists grp'' l l',
       chains g' !! k' = Some (Some grp'') /\ g_color grp'' = g_color grp' /\ g_num_stones grp'' = g_num_stones grp' /\
       group_liberties grp' = Ok l /\ group_liberties grp'' = Ok l' /\
       forall i, i ∈ l' <-> i ∈ l \/ exists p q, on n p /\ on n q /\ i = index n p /\
                                     group_no g p = Some k /\ group_no g q = Some k' /\ adj p q) /\
    (forall k', k' <> k -> (chains g !! k' = Some None <-> chains g' !! k' = Some None)).
Proof. exact (fun H => remove_api dbg n g k grp (breach_wf dbg n m g H)). Qed.
Print Assumptions C30_remove_chain.

Example C30_remove_chain_case dbg : exists m g k grp,
  breach dbg 9 m g /\ chains g !! k = Some (Some grp) /\ g_num_stones grp = 2 /\ group_no g (2, 2) = Some k /\ group_no g (2, 3) = Some k /\
  pos_of g (3, 3) = Some White.
Proof. exact (case_group dbg). Qed.

(** C31: the predicted board is the board after the move exactly when the move is no suicide. *)
Theorem C31_verification_exact dbg n b w g x y : greach dbg n b w g -> on n (x, y) -> position g (x, y) = None ->
  play dbg g (MPlay x y) <> Panic ->
  exists v g' r, play_for_verification dbg g (x, y) = Ok v /\ play dbg g (MPlay x y) = Ok g' /\
    goban_eq v (gm_goban g') = Ok r /\ (r = true <-> ~ suicidal n (position g) (x, y) (gm_turn g)).
Proof. exact (fun H => verification_exact dbg n b w g x y (greach_inv dbg n b w g H)). Qed.
Print Assumptions C31_verification_exact.

Example C31_verification_exact_case dbg : exists g b w,
  greach dbg 9 b w g /\ on 9 (1, 2) /\ position g (1, 2) = None /\ (N.of_nat (b + w) < 65535)%N /\ ~ no_slot_left g /\ play dbg g (MPlay 1 2) <> Panic /\
  position g (1, 1) = Some White /\ gm_turn g = Black /\ gm_passes g = 0 /\ captures 9 (position g) (1, 2) Black.
Proof. exact (case_capture dbg). Qed.

Example C31_verification_exact_case2 dbg : exists g b w,
  greach dbg 3 b w g /\ on 3 (0, 0) /\ position g (0, 0) = None /\ (N.of_nat (b + w) < 65535)%N /\ play dbg g (MPlay 0 0) <> Panic /\ gm_turn g = White /\
  suicidal 3 (position g) (0, 0) White /\ on 3 (2, 2) /\ position g (2, 2) = None /\ ~ suicidal 3 (position g) (2, 2) White.
Proof. exact (case_suicide dbg). Qed.

(** C31: the prediction is wrong for a suicide. *)
Theorem C31_verification_predicts_play_refuted dbg : exists g b w v g',
  greach dbg 3 b w g /\ pos_of (gm_goban g) (0, 0)%nat = None /\
  play_for_verification dbg g (0, 0)%nat = Ok v /\ play dbg g (MPlay 0 0) = Ok g' /\ goban_eq v (gm_goban g') = Ok false.
Proof. exact (verification_wrong dbg). Qed.
Print Assumptions C31_verification_predicts_play_refuted.

(** C42: unchecked [play] or [push] on an occupied point leaves stone counts that the board does not show. *)
Theorem C42_occupied_point_consistent_refuted dbg : exists g b w g' gb,
  greach dbg 3 b w g /\ pos_of (gm_goban g) (1, 1)%nat = Some Black /\
  play dbg g (MPlay 1 1) = Ok g' /\ push dbg (gm_goban g) (1, 1)%nat White = Ok gb /\
  number_of_stones (gm_goban g') = (1, 1)%nat /\ number_of_stones gb = (1, 1)%nat /\
  count 3 (pos_of (gm_goban g')) Black = 0%nat /\ count 3 (pos_of gb) Black = 0%nat.
Proof. exact (occupied_breaks dbg). Qed.
Print Assumptions C42_occupied_point_consistent_refuted.

(** C42: whenever [push] on an occupied point returns, it has counted one stone more and shows none more, so its counts are wrong. *)
Theorem C42_push_miscounts dbg n m g p c g' : breach dbg n m g -> on n p -> pos_of g p <> None -> push dbg g p c = Ok g' ->
  fst (number_of_stones g') + snd (number_of_stones g') = S (count n (pos_of g) Black + count n (pos_of g) White) /\
  (forall q, on n q -> pos_of g q = None -> pos_of g' q = None) /\
  number_of_stones g' <> (count n (pos_of g') Black, count n (pos_of g') White).
Proof. exact (claim_occupied dbg n m g p c g'). Qed.
Print Assumptions C42_push_miscounts.

Example C42_push_miscounts_case dbg : exists m g g', breach dbg 3 m g /\ on 3 (1, 1) /\ pos_of g (1, 1) <> None /\ push dbg g (1, 1) White = Ok g'.
Proof. exact (case_occupied dbg). Qed.

(** C47: the stone iterator visits each stone of the group once, from origin to last. *)
Theorem C47_stone_iterator dbg n m g k grp : breach dbg n m g -> chains g !! k = Some (Some grp) ->
  exists l, group_iter dbg grp (next_stone g) = Ok l /\ NoDup l /\
    head l = Some (g_origin grp) /\ last l = Some (g_last grp) /\ length l = group_iter_size_hint grp /\
    (1 <= length l)%nat /\
    (forall i, i ∈ l <-> exists p, on n p /\ i = index n p /\ group_no g p = Some k).
Proof. exact (fun H => group_walk dbg n g k grp (breach_wf dbg n m g H)). Qed.
Print Assumptions C47_stone_iterator.

Example C47_stone_iterator_case dbg : exists m g k grp,
  breach dbg 9 m g /\ chains g !! k = Some (Some grp) /\ g_num_stones grp = 2 /\ group_no g (2, 2) = Some k /\ group_no g (2, 3) = Some k /\
  pos_of g (3, 3) = Some White.
Proof. exact (case_group dbg). Qed.

(** C54: games that correspond under a symmetry of the board and of the colours stay so, move by move, with the same verdicts. *)
Theorem C54_symmetry n σ τ γ dbg dbg' ms : board_sym n σ τ γ -> forall b w b' w' g h,
  greach dbg n b w g -> greach dbg' n b' w' h ->
  image_game n σ γ g h -> image_history n σ γ g h -> image_caught γ g h ->
  (forall x y, MPlay x y ∈ ms -> on n (x, y)) ->
  (N.of_nat (b + w + length ms) <= 65535)%N -> (N.of_nat (b' + w' + length ms) <= 65535)%N ->
  forbids_fill_eye (gm_rule g) = false \/ (forall q, on n q -> σ q = q) ->
  exists g' h' tr,
    run dbg g (List.map OTry ms) = Ok (g', tr) /\
    run dbg' h (List.map OTry (List.map (image_move σ γ) ms)) = Ok (h', List.map (image_event γ) tr) /\
    image_game n σ γ g' h' /\ image_history n σ γ g' h' /\ image_caught γ g' h'.
Proof. exact (image_run n σ τ γ dbg dbg' ms). Qed.
Print Assumptions C54_symmetry.

Example C54_symmetry_case dbg dbg' : exists g h,
  board_sym 9 (square_symmetry 9 5) (square_symmetry 9 6) opp /\
  greach dbg 9 0 0 g /\ greach dbg' 9 0 0 h /\
  image_game 9 (square_symmetry 9 5) opp g h /\ image_history 9 (square_symmetry 9 5) opp g h /\ image_caught opp g h /\
  (forall x y, MPlay x y ∈ ko_moves -> on 9 (x, y)) /\ (N.of_nat (0 + 0 + length ko_moves) <= 65535)%N /\
  forbids_fill_eye (gm_rule g) = false /\ gm_turn g = Black /\ gm_turn h = White /\ gm_passes g = 0.
Proof. exact (case_image dbg dbg'). Qed.

(** C54: a game that starts on an empty board, turned or reflected move by move, gets the same answers and ends with the turned or reflected board. *)
Theorem C54_whole_games dbg dbg' n s r r' k ms g h : 1 <= n -> size_of s = (n, n) -> k < 8 ->
  game_new s r = Ok g -> game_new s r' = Ok h -> flag_illegal r' = flag_illegal r -> forbids_fill_eye r = false ->
  (forall x y, MPlay x y ∈ ms -> on n (x, y)) -> (N.of_nat (length ms) <= 65535)%N ->
  exists g' h' tr,
    run dbg g (List.map OTry ms) = Ok (g', tr) /\
    run dbg' h (List.map OTry (List.map (image_move (square_symmetry n k) (fun c => c)) ms)) = Ok (h', tr) /\
    (forall p, on n p -> position h' (square_symmetry n k p) = position g' p) /\
    gm_turn h' = gm_turn g' /\ gm_passes h' = gm_passes g' /\ gm_outcome h' = gm_outcome g' /\ gm_prisoners h' = gm_prisoners g'.
Proof. exact (image_whole dbg dbg' n s r r' k ms g h). Qed.
Print Assumptions C54_whole_games.

Example C54_whole_games_case dbg dbg' : exists g h g' h' tr, size_of (Custom 9 9) = (9, 9) /\ game_new (Custom 9 9) JAPANESE = Ok g /\ game_new (Custom 9 9) JAPANESE = Ok h /\
  forbids_fill_eye JAPANESE = false /\ (forall x y, MPlay x y ∈ ko_moves -> on 9 (x, y)) /\ (N.of_nat (length ko_moves) <= 65535)%N /\
  run dbg g (List.map OTry ko_moves) = Ok (g', tr) /\
  run dbg' h (List.map OTry (List.map (image_move (square_symmetry 9 5) (fun c => c)) ko_moves)) = Ok (h', tr) /\ 7 <= turns tr.
Proof. exact (case_whole dbg dbg'). Qed.

(** C54: where filling eyes is forbidden, the answers to a game and to the game turned by half a turn may differ. *)
Theorem C54_with_eyes_refuted dbg : exists g g' h' tr tr', game_new (Custom 5 5) EYES = Ok g /\ forbids_fill_eye EYES = true /\
  (forall x y, MPlay x y ∈ into_eye -> on 5 (x, y)) /\
  run dbg g (List.map OTry into_eye) = Ok (g', tr) /\
  run dbg g (List.map OTry (List.map (image_move (square_symmetry 5 3) (fun c => c)) into_eye)) = Ok (h', tr') /\
  position g' (2, 2) = None /\ position h' (square_symmetry 5 3 (2, 2)) = Some Black /\ turns tr' = S (turns tr).
Proof. exact (turned_eye_answers dbg). Qed.
Print Assumptions C54_with_eyes_refuted.

(** C54: the eight symmetries of the square, with or without exchange of colours, are such symmetries. *)
Theorem C54_eight_symmetries n k γ : (k < 8)%nat -> (forall c, γ (γ c) = c) ->
  board_sym n (square_symmetry n k) (square_symmetry n (match k with 5 => 6 | 6 => 5 | _ => k end)) γ.
Proof. exact (square_ok n k γ). Qed.
Print Assumptions C54_eight_symmetries.

(** C57: the 722 table entries are distinct and not zero. *)
Theorem C57_table : length ZOBRIST = 722 /\ NoDup ZOBRIST /\ 0%N ∉ ZOBRIST.
Proof. exact table_ok. Qed.
Print Assumptions C57_table.

(** C57: boards that differ in one point have different hashes. *)
Theorem C57_one_point dbg n m m' a b p : breach dbg n m a -> breach dbg n m' b -> on n p ->
  pos_of a p <> pos_of b p -> (forall q, on n q -> q <> p -> pos_of a q = pos_of b q) -> zobrist_hash a <> zobrist_hash b.
Proof. exact (hash_one dbg n m m' a b p). Qed.
Print Assumptions C57_one_point.

Example C57_one_point_case dbg : exists m m' a b,
  breach dbg 9 m a /\ breach dbg 9 m' b /\ on 9 (4, 4) /\ pos_of a (4, 4) <> pos_of b (4, 4) /\
  (forall q, on 9 q -> q <> (4, 4) -> pos_of a q = pos_of b q) /\ pos_of a (1, 1) = Some Black.
Proof. exact (case_one dbg). Qed.

(** C57: boards that differ by a moved, possibly recoloured, stone have different hashes. *)
Theorem C57_moved_stone dbg n m m' a b p q c d : breach dbg n m a -> breach dbg n m' b -> on n p -> on n q -> p <> q ->
  pos_of a p = Some c -> pos_of b p = None -> pos_of a q = None -> pos_of b q = Some d ->
  (forall r, on n r -> r <> p -> r <> q -> pos_of a r = pos_of b r) -> zobrist_hash a <> zobrist_hash b.
Proof. exact (hash_moved dbg n m m' a b p q c d). Qed.
Print Assumptions C57_moved_stone.

Example C57_moved_stone_case dbg : exists m m' a b,
  breach dbg 9 m a /\ breach dbg 9 m' b /\ on 9 (4, 4) /\ on 9 (5, 5) /\ (4, 4) <> (5, 5) /\
  pos_of a (4, 4) = Some Black /\ pos_of b (4, 4) = None /\ pos_of a (5, 5) = None /\ pos_of b (5, 5) = Some Black /\
  (forall q, on 9 q -> q <> (4, 4) -> q <> (5, 5) -> pos_of a q = pos_of b q) /\ pos_of a (2, 2) = Some White.
Proof. exact (case_moved dbg). Qed.

(** C57: boards that differ in one, two or three points have different hashes. *)
Theorem C57_three_points dbg dbg' n m m' a b D : breach dbg n m a -> breach dbg' n m' b -> (length D <= 3)%nat ->
  (forall p, on n p -> pos_of a p <> pos_of b p -> p ∈ D) -> (exists p, on n p /\ pos_of a p <> pos_of b p) ->
  zobrist_hash a <> zobrist_hash b.
Proof. exact (hash_three dbg dbg' n m m' a b D). Qed.
Print Assumptions C57_three_points.

Example C57_three_points_case dbg : exists m m' a b,
  breach dbg 9 m a /\ breach dbg 9 m' b /\ length [(4, 4); (5, 5); (2, 2)] <= 3 /\
  (forall p, on 9 p -> pos_of a p <> pos_of b p -> p ∈ [(4, 4); (5, 5); (2, 2)]) /\
  pos_of a (4, 4) <> pos_of b (4, 4) /\ pos_of a (5, 5) <> pos_of b (5, 5) /\ pos_of a (2, 2) <> pos_of b (2, 2).
Proof. exact (case_three dbg). Qed.

(** C57: where suicide is forbidden, every accepted stone that captures at most two stones changes the hash. *)
Theorem C57_moves dbg n b w g g' x y : greach dbg n b w g -> forbids_suicide (gm_rule g) = true -> on n (x, y) ->
  try_play dbg g (MPlay x y) = Ok (g', Accepted) ->
  (count n (position g) (opp (gm_turn g)) <= count n (position g') (opp (gm_turn g)) + 2)%nat ->
  zobrist_hash (gm_goban g') <> zobrist_hash (gm_goban g).
Proof. exact (hash_moves dbg n b w g g' x y). Qed.
Print Assumptions C57_moves.

Example C57_moves_case dbg : exists g g' b w, greach dbg 9 b w g /\ forbids_suicide (gm_rule g) = true /\ on 9 (1, 2) /\
  try_play dbg g (MPlay 1 2) = Ok (g', Accepted) /\ count 9 (position g) (opp (gm_turn g)) <= count 9 (position g') (opp (gm_turn g)) + 2 /\
  count 9 (position g') (opp (gm_turn g)) < count 9 (position g) (opp (gm_turn g)).
Proof. exact (case_hash_move dbg). Qed.

(** C57: two legal positions with the same hash that do not compare equal. *)
Theorem C57_collision dbg : exists g h,
  lreach dbg 9 g /\ lreach dbg 9 h /\ (exists p, on 9 p /\ position g p <> position h p) /\
  zobrist_hash (gm_goban g) = zobrist_hash (gm_goban h) /\ goban_eq (gm_goban g) (gm_goban h) = Ok false.
Proof. exact (collision dbg). Qed.
Print Assumptions C57_collision.

(** C58: a white chain without liberty that the black stone does not touch stays on the board. *)
Theorem C58_global_capture_refuted dbg : exists g b w g',
  greach dbg 4 b w g /\ on 4 (3, 3)%nat /\ pos_of (gm_goban g) (3, 3)%nat = None /\
  play dbg g (MPlay 3 3) = Ok g' /\ gm_turn g = Black /\
  taken_anywhere 4 (put (pos_of (gm_goban g)) (3, 3)%nat Black) Black (0, 0)%nat /\
  pos_of (gm_goban g') (0, 0)%nat = Some White.
Proof. exact (zombie_stays dbg). Qed.
Print Assumptions C58_global_capture_refuted.

(** C58: in legal games the rule holds with the global wording of Tromp and Taylor. *)
Theorem C58_tromp_taylor dbg n g x y g' :
  lreach dbg n g -> on n (x, y) -> try_play dbg g (MPlay x y) = Ok (g', Accepted) ->
  position g (x, y) = None /\ tromp_taylor_move n (position g) (x, y) (gm_turn g) (position g').
Proof. exact (claim_tromp_taylor dbg n g x y g'). Qed.
Print Assumptions C58_tromp_taylor.

Example C58_tromp_taylor_case dbg : exists g g',
  lreach dbg 9 g /\ on 9 (1, 2) /\ forbids_ko (gm_rule g) = true /\ forbids_suicide (gm_rule g) = true /\
  forbids_superko (gm_rule g) = false /\ forbids_fill_eye (gm_rule g) = false /\
  try_play dbg g (MPlay 1 2) = Ok (g', Accepted) /\ position g (1, 1) = Some White /\ position g' (1, 1) = None /\
  on 9 (1, 1) /\ try_play dbg g' (MPlay 1 1) = Ok (g', Refused EKo) /\
  on 9 (5, 5) /\ exists g'', try_play dbg g' (MPlay 5 5) = Ok (g'', Accepted).
Proof. exact (case_legal dbg). Qed.

(** C60: [chain_stones] given the index of a point, as its signature suggests, may list other stones. *)
Theorem C60_chain_stones_of_coordinate_refuted dbg : exists g b w l,
  greach dbg 3 b w g /\ chain_stones dbg (gm_goban g) (two_to_1dim (gsize (gm_goban g)) (0, 1)%nat) = Ok l /\
  pos_of (gm_goban g) (0, 1)%nat = Some Black /\ ((0, 1)%nat, Black) ∉ l.
Proof. exact (chain_stones_coordinate dbg). Qed.
Print Assumptions C60_chain_stones_of_coordinate_refuted.

(** C64: games that look alike go on alike, whatever their history of group numbers and the build profile. *)
Theorem C64_look_alikes_go_on_alike n dbg dbg' ms b w b' w' g h :
  greach dbg n b w g -> greach dbg' n b' w' h -> look_alike n g h ->
  (forall x y, MPlay x y ∈ ms -> on n (x, y)) ->
  (N.of_nat (b + w + length ms) <= 65535)%N -> (N.of_nat (b' + w' + length ms) <= 65535)%N ->
  exists g' h' tr, run dbg g (List.map OTry ms) = Ok (g', tr) /\ run dbg' h (List.map OTry ms) = Ok (h', tr) /\ look_alike n g' h'.
Proof. exact (alike_run n dbg dbg' ms b w b' w' g h). Qed.
Print Assumptions C64_look_alikes_go_on_alike.

Example C64_look_alikes_go_on_alike_case dbg dbg' : exists g h b w b' w',
  greach dbg 9 b w g /\ greach dbg' 9 b' w' h /\ look_alike 9 g h /\
  (forall x y, MPlay x y ∈ [MPlay 1 1; MPass; MPlay 5 5] -> on 9 (x, y)) /\
  (N.of_nat (b + w + 3) <= 65535)%N /\ (N.of_nat (b' + w' + 3) <= 65535)%N /\
  group_no (gm_goban g) (3, 3) = Some 1 /\ group_no (gm_goban h) (3, 3) = Some 0.
Proof. exact (case_alike dbg dbg'). Qed.

(** C64: games that look alike have the same score and outcome, for every komi and every iteration order of the hash sets. *)
Theorem C64_look_alikes_score_alike n order order' dbg dbg' b w b' w' g h flags :
  greach dbg n b w g -> greach dbg' n b' w' h -> (forall l, order l ≡ₚ l) -> (forall l, order' l ≡ₚ l) ->
  look_alike n g h ->
  (exists s, calculate_score_by order dbg g flags = Ok s /\ calculate_score_by order' dbg' h flags = Ok s) /\
  (exists o, outcome order dbg g = Ok o /\ outcome order' dbg' h = Ok o).
Proof. exact (alike_score n order order' dbg dbg' b w b' w' g h flags). Qed.
Print Assumptions C64_look_alikes_score_alike.

Example C64_look_alikes_score_alike_case dbg dbg' : exists g h b w b' w',
  greach dbg 9 b w g /\ greach dbg' 9 b' w' h /\ look_alike 9 g h /\
  (forall x y, MPlay x y ∈ [MPlay 1 1; MPass; MPlay 5 5] -> on 9 (x, y)) /\
  (N.of_nat (b + w + 3) <= 65535)%N /\ (N.of_nat (b' + w' + 3) <= 65535)%N /\
  group_no (gm_goban g) (3, 3) = Some 1 /\ group_no (gm_goban h) (3, 3) = Some 0.
Proof. exact (case_alike dbg dbg'). Qed.
