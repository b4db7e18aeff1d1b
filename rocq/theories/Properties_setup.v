(** Properties of sizes, coordinates, set-up and import: C38, C39, C48, C49, C51, C52, C56 *)
From stdpp Require Import relations sorting strings.
From Verif Require Import Spec Reach Observe SgfSpec Samples GameFacts RulesFacts BoundsFacts SetupFacts SgfFacts RefuteFacts RuleFacts CaseFacts RectClaims.
Local Notation length := Datatypes.length.
Open Scope nat_scope.

(** C38: a play whose index is 361 or more panics. *)
Theorem C38_far_plays_panic dbg n b w g x y : greach dbg n b w g -> (361 <= x * n + y)%nat ->
  play dbg g (MPlay x y) = Panic /\ (gm_passes g <> 2%nat -> try_play dbg g (MPlay x y) = Panic).
Proof. exact (fun H => play_far dbg n b w g x y (greach_inv dbg n b w g H)). Qed.
Print Assumptions C38_far_plays_panic.

Example C38_far_plays_panic_case dbg : exists g b w, greach dbg 9 b w g /\ 361 <= 40 * 9 + 1 /\ 0 * 9 + 9 = 1 * 9 + 0 /\ ~ on 9 (0, 9) /\ gm_passes g <> 2 /\ position g (4, 4) = Some Black.
Proof. exact (case_far dbg). Qed.

(** C38: a play depends on the index x*n+y only, so points beyond the edge mean points of the next row. *)
Theorem C38_index_decides dbg n b w g x y x' y' : greach dbg n b w g -> (x * n + y = x' * n + y')%nat ->
  play dbg g (MPlay x y) = play dbg g (MPlay x' y').
Proof. exact (fun H => play_alias dbg n b w g x y x' y' (greach_inv dbg n b w g H)). Qed.
Print Assumptions C38_index_decides.

Example C38_index_decides_case dbg : exists g b w, greach dbg 9 b w g /\ 361 <= 40 * 9 + 1 /\ 0 * 9 + 9 = 1 * 9 + 0 /\ ~ on 9 (0, 9) /\ gm_passes g <> 2 /\ position g (4, 4) = Some Black.
Proof. exact (case_far dbg). Qed.

(** C38: plays outside the board are accepted; they put a stone elsewhere, or one that the board does not show. *)
Theorem C38_outside_plays_panic_refuted dbg : exists g g' g'',
  lreach dbg 9 g /\ ~ on 9 (0, 9)%nat /\ try_play dbg g (MPlay 0 9) = Ok (g', Accepted) /\
  pos_of (gm_goban g) (1, 0)%nat = None /\ pos_of (gm_goban g') (1, 0)%nat = Some Black /\
  ~ on 9 (9, 3)%nat /\ play dbg g (MPlay 9 3) = Ok g'' /\
  number_of_stones (gm_goban g'') = (1, 0)%nat /\ count 9 (pos_of (gm_goban g'')) Black = 0%nat.
Proof. exact (outside_accepted dbg). Qed.
Print Assumptions C38_outside_plays_panic_refuted.

(** C39: on a board wider than high two points share an index. *)
Theorem C39_rectangles_collide_refuted h w : (2 <= h)%nat -> (h < w)%nat ->
  two_to_1dim (h, w) (0, h)%nat = two_to_1dim (h, w) (1, 0)%nat.
Proof. exact (rect_collision h w). Qed.
Print Assumptions C39_rectangles_collide_refuted.

Example C39_rectangles_collide_refuted_case : 2 <= 4 /\ 4 < 5 /\ 4 < 9 /\ (exists g, goban_new (4, 5) = Ok g) /\ (exists g, goban_new (4, 9) = Ok g).
Proof. exact case_rect. Qed.

(** C39: the conversions are inverse to each other exactly when the width divides the height. *)
Theorem C39_conversion_exact h w : (1 <= h <= 19)%nat -> (1 <= w <= 19)%nat ->
  (forall r c, (r < h)%nat -> (c < w)%nat -> one_to_2dim (h, w) (two_to_1dim (h, w) (r, c)) = Ok (r, c)) <->
  (exists k, h = k * w)%nat.
Proof. exact (rect_round_trip h w). Qed.
Print Assumptions C39_conversion_exact.

Example C39_conversion_exact_case : 2 <= 4 /\ 4 < 5 /\ 4 < 9 /\ (exists g, goban_new (4, 5) = Ok g) /\ (exists g, goban_new (4, 9) = Ok g).
Proof. exact case_rect. Qed.

(** C39: on every board that is not square some point is missing from the empty points of the empty board. *)
Theorem C39_missing_point_refuted h w g : goban_new (h, w) = Ok g -> (1 <= h)%nat -> (1 <= w)%nat -> h <> w ->
  exists p, (fst p < h /\ snd p < w)%nat /\ forall l, get_empty_coords g = Ok l -> p ∉ l.
Proof. exact (rect_missing h w g). Qed.
Print Assumptions C39_missing_point_refuted.

Example C39_missing_point_refuted_case : 2 <= 4 /\ 4 < 5 /\ 4 < 9 /\ (exists g, goban_new (4, 5) = Ok g) /\ (exists g, goban_new (4, 9) = Ok g).
Proof. exact case_rect. Qed.

(** C39: in every game on a board wider than high, each point beyond column h - 1 shows the stone of a point in the next row. *)
Theorem C39_points_coincide_refuted h w (g : game) r c : gsize (gm_goban g) = (h, w) -> h <= c ->
  position g (r, c) = position g (S r, c - h).
Proof. exact (shared_points h w g r c). Qed.
Print Assumptions C39_points_coincide_refuted.

Example C39_points_coincide_refuted_case : exists g, game_new (Custom 4 9) JAPANESE = Ok g /\ gsize (gm_goban g) = (4, 9) /\ 4 <= 8.
Proof. exact case_shared. Qed.

(** C39: in games of the sizes named in the README a stone at (0,4) is also at (1,0), which can then no longer be played. *)
Theorem C39_readme_sizes_refuted dbg w : w = 5%N \/ w = 9%N -> exists g g',
  game_new (Custom 4 w) JAPANESE = Ok g /\ position g (1, 0) = None /\ try_play dbg g (MPlay 0 4) = Ok (g', Accepted) /\
  position g' (0, 4) = Some Black /\ position g' (1, 0) = Some Black /\ try_play dbg g' (MPlay 1 0) = Ok (g', Refused EPointNotEmpty).
Proof. exact (readme_sizes dbg w). Qed.
Print Assumptions C39_readme_sizes_refuted.

(** C48: [build] puts the handicap and set-up stones, plays the moves and resets the builder. *)
Theorem C48_builder dbg n bl : (1 <= n <= 19)%nat -> b_size bl = (n, n) ->
  NoDup (setup_stones bl).*1 -> (forall s, s ∈ setup_stones bl -> on n (fst s)) ->
  (N.of_nat (length (setup_stones bl)) <= 65535)%N ->
  exists g0,
    greach dbg n (of_color Black (setup_stones bl)) (of_color White (setup_stones bl)) g0 /\
    (forall p c, on n p -> pos_of (gm_goban g0) p = Some c <-> (p, c) ∈ setup_stones bl) /\
    gm_passes g0 = 0%nat /\ gm_prisoners g0 = (0%N, 0%N) /\ gm_history g0 = [] /\ gm_ko_point g0 = None /\
    gm_outcome g0 = b_outcome bl /\
    gm_handicap g0 = default (N.of_nat (length (b_handicap_points bl))) (b_handicap bl) /\
    gm_turn g0 = default (if decide (gm_handicap g0 = 0%N) then Black else White) (b_turn bl) /\
    komi g0 = default (r_komi (b_rule bl)) (b_komi bl) /\
    flag_illegal (gm_rule g0) = flag_illegal (b_rule bl) /\ flag_score (gm_rule g0) = flag_score (b_rule bl) /\
    build dbg bl = (builder_default, foldM (fun g m => play dbg g m) (b_moves bl) g0).
Proof. exact (build_ok dbg n bl). Qed.
Print Assumptions C48_builder.

Example C48_builder_case : 1 <= 9 <= 19 /\ b_size sample_builder = (9, 9) /\ NoDup (setup_stones sample_builder).*1 /\
  (forall s, s ∈ setup_stones sample_builder -> on 9 (fst s)) /\ (N.of_nat (length (setup_stones sample_builder)) <= 65535)%N.
Proof. exact case_build. Qed.

(** C49: handicap stones. *)
Theorem C49_handicap dbg n b w g pts : greach dbg n b w g -> NoDup pts ->
  (forall p, p ∈ pts -> on n p /\ position g p = None) ->
  (N.of_nat (b + w + length pts) <= 65535)%N ->
  exists g', put_handicap dbg g pts = Ok g' /\
    (forall p, on n p -> position g' p = if decide (p ∈ pts) then Some Black else position g p) /\
    gm_turn g' = White /\ gm_handicap g' = N.of_nat (length pts) /\
    gm_rule g' = gm_rule g /\ gm_prisoners g' = gm_prisoners g /\ gm_passes g' = gm_passes g /\
    gm_outcome g' = gm_outcome g /\ gm_history g' = gm_history g /\ gm_ko_point g' = gm_ko_point g.
Proof. exact (fun H => handicap_ok dbg n b w g pts (greach_inv dbg n b w g H)). Qed.
Print Assumptions C49_handicap.

Example C49_handicap_case dbg : exists g b w,
  greach dbg 9 b w g /\ NoDup [(2, 2); (6, 6)] /\ (forall p, p ∈ [(2, 2); (6, 6)] -> on 9 p /\ position g p = None) /\
  (N.of_nat (b + w + length [(2, 2); (6, 6)]) <= 65535)%N /\ position g (4, 4) = Some Black.
Proof. exact (case_handicap dbg). Qed.

(** C51: a supported record is imported as the builder that it describes. *)
Theorem C51_import dbg root rest : supported dbg root rest ->
  from_sgf_nodes dbg (root :: rest) = snd (build dbg (record_builder root rest)).
Proof. exact (sgf_supported dbg root rest). Qed.
Print Assumptions C51_import.

Example C51_import_case dbg : exists g,
  supported dbg sample_root sample_rest /\ alternate (first_player sample_root) (List.map fst (omap first_move sample_rest)) /\
  first_player sample_root = White /\
  from_sgf_nodes dbg (sample_root :: sample_rest) = Ok g /\ position g (4, 4) = Some White /\ position g (8, 0) = Some Black /\ position g (2, 2) = Some Black.
Proof. exact (case_sgf dbg). Qed.

(** C51: each later node plays its first token, if that is a move, at (line - 1, column - 1). *)
Theorem C51_import_step dbg root rest k node : supported dbg root rest -> rest !! k = Some node ->
  from_sgf_nodes dbg (root :: take (S k) rest)
  = (let! g := from_sgf_nodes dbg (root :: take k rest) in
     match first_move node with Some (c, a) => play dbg g (sgf_move a) | None => Ok g end).
Proof. exact (sgf_step dbg root rest k node). Qed.
Print Assumptions C51_import_step.

Example C51_import_step_case dbg : exists g,
  supported dbg sample_root sample_rest /\ alternate (first_player sample_root) (List.map fst (omap first_move sample_rest)) /\
  first_player sample_root = White /\
  from_sgf_nodes dbg (sample_root :: sample_rest) = Ok g /\ position g (4, 4) = Some White /\ position g (8, 0) = Some Black /\ position g (2, 2) = Some Black.
Proof. exact (case_sgf dbg). Qed.

(** C51: the moves are given to the players in turn. *)
Theorem C51_import_turns dbg root rest k g : supported dbg root rest -> from_sgf_nodes dbg (root :: take k rest) = Ok g ->
  gm_turn g = nth_turn (first_player root) (length (omap first_move (take k rest))).
Proof. exact (sgf_turns dbg root rest k g). Qed.
Print Assumptions C51_import_turns.

Example C51_import_turns_case dbg : exists g,
  supported dbg sample_root sample_rest /\ alternate (first_player sample_root) (List.map fst (omap first_move sample_rest)) /\
  first_player sample_root = White /\
  from_sgf_nodes dbg (sample_root :: sample_rest) = Ok g /\ position g (4, 4) = Some White /\ position g (8, 0) = Some Black /\ position g (2, 2) = Some Black.
Proof. exact (case_sgf dbg). Qed.

(** C51: if the recorded colours alternate, each move is played with its colour. *)
Theorem C51_import_colours dbg root rest : supported dbg root rest ->
  alternate (first_player root) (List.map fst (omap first_move rest)) ->
  forall k node c a g, rest !! k = Some node -> first_move node = Some (c, a) ->
    from_sgf_nodes dbg (root :: take k rest) = Ok g -> gm_turn g = c.
Proof. exact (sgf_colours dbg root rest). Qed.
Print Assumptions C51_import_colours.

Example C51_import_colours_case dbg : exists g,
  supported dbg sample_root sample_rest /\ alternate (first_player sample_root) (List.map fst (omap first_move sample_rest)) /\
  first_player sample_root = White /\
  from_sgf_nodes dbg (sample_root :: sample_rest) = Ok g /\ position g (4, 4) = Some White /\ position g (8, 0) = Some Black /\ position g (2, 2) = Some Black.
Proof. exact (case_sgf dbg). Qed.

(** C51: two black moves in a row are imported as a black and a white stone. *)
Theorem C51_colour_followed_refuted dbg : exists g, from_sgf_nodes dbg two_blacks = Ok g /\
  supported dbg [TGame true; TSize 9 9; TRule SJapanese] [[TMove Black (SMove 3 4)]; [TMove Black (SMove 5 5)]] /\
  position g (3, 2) = Some Black /\ position g (4, 4) = Some White.
Proof. exact (colour_refuted dbg). Qed.
Print Assumptions C51_colour_followed_refuted.

(** C51: a move that is not the first token of its node is skipped. *)
Theorem C51_every_move_played_refuted dbg : exists g,
  from_sgf_nodes dbg [[TGame true; TSize 9 9]; [TOther; TMove Black (SMove 3 4)]] = Ok g /\
  node_moves [TOther; TMove Black (SMove 3 4)] = [(Black, SMove 3 4)] /\ position g (3, 2) = None.
Proof. exact (later_token_refuted dbg). Qed.
Print Assumptions C51_every_move_played_refuted.

(** C52: every unsupported record panics. *)
Theorem C52_unsupported_records_panic dbg root rest : ~ supported dbg root rest -> from_sgf_nodes dbg (root :: rest) = Panic.
Proof. exact (sgf_unsupported dbg root rest). Qed.
Print Assumptions C52_unsupported_records_panic.

Example C52_unsupported_records_panic_case dbg : ~ supported dbg [TSize 9 9; TRule SOtherRule] [[TMove Black (SMove 3 4)]].
Proof. exact (case_unsupported dbg). Qed.

(** C52: other rules, other games and other player tags panic. *)
Theorem C52_errors_instead_of_panics_refuted dbg :
  from_sgf_nodes dbg [[TRule SOtherRule]] = Panic /\ from_sgf_nodes dbg [[TGame false]] = Panic /\
  from_sgf_nodes dbg [[TUnknown "PL" "Black"]] = Panic.
Proof. exact (sgf_panics dbg). Qed.
Print Assumptions C52_errors_instead_of_panics_refuted.

(** C56: the sizes are taken modulo 256, and the board is made exactly when both are then at most 19. *)
Theorem C56_size_exact h w r : 
  ((h mod 256 <= 19)%N /\ (w mod 256 <= 19)%N -> exists g, game_new (Custom h w) r = Ok g /\
     gsize (gm_goban g) = (N.to_nat (h mod 256), N.to_nat (w mod 256))) /\
  (~ ((h mod 256 <= 19)%N /\ (w mod 256 <= 19)%N) -> game_new (Custom h w) r = Panic).
Proof. exact (size_exact h w r). Qed.
Print Assumptions C56_size_exact.

(** C56: a request for 265 x 9 gives a 9 x 9 board. *)
Theorem C56_size_honoured_refuted r : exists g, game_new (Custom 265 9) r = Ok g /\ gsize (gm_goban g) = (9, 9).
Proof. exact (size_refuted r). Qed.
Print Assumptions C56_size_honoured_refuted.

(** C56: the sizes that have a name are 9, 13 and 19; any other number panics. *)
Theorem C56_named_sizes x :
  (x = 9%N \/ x = 13%N \/ x = 19%N -> exists s, sizes_of_usize x = Ok s /\ size_of s = (N.to_nat x, N.to_nat x) /\
     forall r, exists g, game_new s r = Ok g /\ gsize (gm_goban g) = (N.to_nat x, N.to_nat x)) /\
  (~ (x = 9%N \/ x = 13%N \/ x = 19%N) -> sizes_of_usize x = Panic).
Proof. exact (named_sizes x). Qed.
Print Assumptions C56_named_sizes.
