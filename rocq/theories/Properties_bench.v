(** The benchmarks and the settings of a game: C92, C93, C94 *)
From stdpp Require Import relations sorting strings.
From Verif Require Import Glue Spec Reach Observe SymSpec BenchSpec PlayoutSpec SettingsSpec Samples PlayClaims PerftFacts PerftClaims BenchFacts BenchClaims SettingsFacts.
Local Notation length := Datatypes.length.
Open Scope nat_scope.

(** C92: perft counts the lines of accepted stones of the given length, as far as a u64 can. *)
Theorem C92_perft_counts_lines dbg n b w g d : greach dbg n b w g -> gm_passes g <> 2%nat -> (N.of_nat (b + w + d) <= 65535)%N ->
  exists k, number_of (fun ms => length ms = d /\ playable_line n (flag_illegal (gm_rule g)) (table_of g) ms) k /\ perft dbg g d = as_u64 dbg k.
Proof. exact (perft_exact dbg n b w g d). Qed.
Print Assumptions C92_perft_counts_lines.

Example C92_perft_counts_lines_case dbg : exists g b w, greach dbg 3 b w g /\ gm_passes g <> 2%nat /\ (N.of_nat (b + w + 3) <= 65535)%N /\
  position g (0, 0) = None /\ position g (0, 1) = Some Black /\ gm_turn g = White /\ perft dbg g 1 = Ok 6%N /\ perft dbg g 2 = Ok 36%N /\ perft dbg g 3 = Ok 142%N.
Proof. exact (case_perft dbg). Qed.

(** C92: perft does not look at the passes, so a paused game counts as the resumed game. *)
Theorem C92_perft_after_two_passes dbg g d : perft dbg (resume g) d = perft dbg g d.
Proof. exact (perft_resume dbg g d). Qed.
Print Assumptions C92_perft_after_two_passes.

Example C92_perft_after_two_passes_case dbg : exists g, lreach dbg 3 g /\ gm_passes g = 2%nat /\ perft dbg g 2 = Ok 42%N /\ perft dbg (resume g) 2 = Ok 42%N.
Proof. exact (case_perft_paused dbg). Qed.

(** C92: games that correspond under a symmetry have the same numbers of lines. *)
Theorem C92_perft_symmetry n σ τ γ dbg b w b' w' g h d : board_sym n σ τ γ -> greach dbg n b w g -> greach dbg n b' w' h ->
  image_game n σ γ g h -> image_history n σ γ g h -> image_caught γ g h -> gm_passes g <> 2%nat ->
  (N.of_nat (b + w + d) <= 65535)%N -> (N.of_nat (b' + w' + d) <= 65535)%N ->
  forbids_fill_eye (gm_rule g) = false \/ (forall q, on n q -> σ q = q) ->
  perft dbg g d = perft dbg h d.
Proof. exact (perft_image n σ τ γ dbg b w b' w' g h d). Qed.
Print Assumptions C92_perft_symmetry.

Example C92_perft_symmetry_case dbg : exists g h,
  board_sym 9 (square_symmetry 9 5) (square_symmetry 9 6) opp /\ greach dbg 9 0 0 g /\ greach dbg 9 0 0 h /\
  image_game 9 (square_symmetry 9 5) opp g h /\ image_history 9 (square_symmetry 9 5) opp g h /\ image_caught opp g h /\ gm_passes g <> 2%nat /\
  (N.of_nat (0 + 0 + 2) <= 65535)%N /\ forbids_fill_eye (gm_rule g) = false /\ gm_turn g = Black /\ gm_turn h = White.
Proof. exact (case_perft_image dbg). Qed.

(** C92: on an empty board of at least two lines, up to depth three every order of distinct points can be played. *)
Theorem C92_perft_empty_board dbg n s r g : (2 <= n)%nat -> size_of s = (n, n) -> game_new s r = Ok g ->
  let m := N.of_nat (n * n) in
  perft dbg g 1 = Ok m /\ perft dbg g 2 = Ok (m * (m - 1))%N /\ perft dbg g 3 = Ok (m * (m - 1) * (m - 2))%N.
Proof. exact (perft_empty dbg n s r g). Qed.
Print Assumptions C92_perft_empty_board.

Example C92_perft_empty_board_case dbg : exists g, (2 <= 13)%nat /\ size_of Thirteen = (13, 13)%nat /\ game_new Thirteen CHINESE = Ok g /\
  perft dbg g 3 = Ok (169 * 168 * 167)%N.
Proof. exact (case_perft_empty dbg). Qed.

(** C92: at depth nine on the 19x19 board the sum leaves the range of u64: perft panics in debug builds and returns another number in release builds. *)
Theorem C92_perft_any_depth_refuted : exists g k, game_new Nineteen CHINESE = Ok g /\
  number_of (fun ms => length ms = 9%nat /\ playable_line 19 (flag_illegal CHINESE) (table_of g) ms) k /\
  perft true g 9 = Panic /\ exists k', perft false g 9 = Ok k' /\ k' <> k.
Proof. exact perft_overflow. Qed.
Print Assumptions C92_perft_any_depth_refuted.

(** C93: the game of fast_play_game ends, each of its moves is a move of a random playout, and the result is a legal game; or it runs out of group numbers. *)
Theorem C93_fast_game_ends dbg r shuffles fuel : (forall i l, shuffles i l ≡ₚ l) -> (47316994 < N.of_nat fuel)%N ->
  exists g, game_new Nineteen r = Ok g /\
   ((exists g', fast_play_game fuel shuffles dbg r = Ok g' /\ rtc (playout_step dbg 19) g g' /\ is_over g' = true /\ lreach dbg 19 g') \/
    (fast_play_game fuel shuffles dbg r = Panic /\ exists g1, rtc (playout_step dbg 19) g g1 /\ no_slot_left g1)).
Proof. exact (bench_fast_ends dbg r shuffles fuel). Qed.
Print Assumptions C93_fast_game_ends.

Example C93_fast_game_ends_case dbg : exists g', (forall i l, wheel i l ≡ₚ l) /\ (47316994 < N.of_nat (N.to_nat 47316995))%N /\ (N.of_nat 800 <= 65535)%N /\
  fast_play_game 800 wheel dbg CHINESE = Ok g' /\ is_over g' = true /\ length (gm_history g') = 531%nat.
Proof. exact (case_bench dbg). Qed.

(** C93: the same for play_game. *)
Theorem C93_slow_game_ends dbg shuffles fuel : (forall i l, shuffles i l ≡ₚ l) -> (47316994 < N.of_nat fuel)%N ->
  exists g, game_new Nineteen CHINESE = Ok g /\
   ((exists g', play_game fuel shuffles dbg = Ok g' /\ rtc (playout_step dbg 19) g g' /\ is_over g' = true /\ lreach dbg 19 g') \/
    (play_game fuel shuffles dbg = Panic /\ exists g1, rtc (playout_step dbg 19) g g1 /\ no_slot_left g1)).
Proof. exact (bench_slow_ends dbg shuffles fuel). Qed.
Print Assumptions C93_slow_game_ends.

Example C93_slow_game_ends_case dbg : exists g', (forall i l, wheel i l ≡ₚ l) /\ (47316994 < N.of_nat (N.to_nat 47316995))%N /\ (N.of_nat 800 <= 65535)%N /\
  fast_play_game 800 wheel dbg CHINESE = Ok g' /\ is_over g' = true /\ length (gm_history g') = 531%nat.
Proof. exact (case_bench dbg). Qed.

(** C93: within 65535 moves the two functions can produce the same games. *)
Theorem C93_same_games dbg fuel g' : (N.of_nat fuel <= 65535)%N ->
  (exists shuffles, (forall i l, shuffles i l ≡ₚ l) /\ fast_play_game fuel shuffles dbg CHINESE = Ok g') <->
  (exists shuffles, (forall i l, shuffles i l ≡ₚ l) /\ play_game fuel shuffles dbg = Ok g').
Proof. exact (bench_same dbg fuel g'). Qed.
Print Assumptions C93_same_games.

Example C93_same_games_case dbg : exists g', (forall i l, wheel i l ≡ₚ l) /\ (47316994 < N.of_nat (N.to_nat 47316995))%N /\ (N.of_nat 800 <= 65535)%N /\
  fast_play_game 800 wheel dbg CHINESE = Ok g' /\ is_over g' = true /\ length (gm_history g') = 531%nat.
Proof. exact (case_bench dbg). Qed.

(** C94: the komi is the one set last, the handicap that of the last put_handicap, and the rule is otherwise never changed. *)
Theorem C94_settings dbg ops g g' l : calls dbg g ops = Ok (g', l) ->
  komi g' = last_komi (komi g) ops /\ flag_illegal (gm_rule g') = flag_illegal (gm_rule g) /\ flag_score (gm_rule g') = flag_score (gm_rule g) /\
  gm_handicap g' = last_handicap (gm_handicap g) ops.
Proof. exact (calls_settings dbg ops g g' l). Qed.
Print Assumptions C94_settings.

Example C94_settings_case dbg : exists g g', game_new (Custom 9 9) JAPANESE = Ok g /\ calls dbg g settings_ops = Ok (g', settings_answers) /\
  komi g = f32_make 13 (-1) /\ komi g' = f32_of_N 5 /\ gm_handicap g = 0%N /\ gm_handicap g' = 2%N.
Proof. exact (case_settings dbg). Qed.

(** C94: leaving out the changes of komi changes no answer, and nothing in the game but the komi. *)
Theorem C94_komi_only_counts_in_scores dbg ops g :
  match calls dbg g ops with
  | Ok (g', l) => calls dbg g (without_komi ops) = Ok (set_komi g' (komi g), answers_without_komi ops l)
  | Panic => calls dbg g (without_komi ops) = Panic
  | Diverge => calls dbg g (without_komi ops) = Diverge
  end.
Proof. exact (calls_without_komi dbg ops g). Qed.
Print Assumptions C94_komi_only_counts_in_scores.

Example C94_komi_only_counts_in_scores_case dbg : exists g g', game_new (Custom 9 9) JAPANESE = Ok g /\ calls dbg g settings_ops = Ok (g', settings_answers) /\
  komi g = f32_make 13 (-1) /\ komi g' = f32_of_N 5 /\ gm_handicap g = 0%N /\ gm_handicap g' = 2%N.
Proof. exact (case_settings dbg). Qed.
