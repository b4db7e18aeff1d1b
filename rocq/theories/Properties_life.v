(** Unconditional life, area against territory, the end of games and the positions they reach: C75-C81; eyes and symmetry: C59 *)
From stdpp Require Import relations sorting strings.
From Verif Require Import Spec Reach Observe ScoreSpec LifeSpec PlayoutSpec AreaSpec EndSpec Samples LifeFacts AreaFacts CaseFacts PositionFacts LifeClaims EndFacts EndClaims SolidFacts PlayClaims SolidClaims SymSpec SymFacts SymScore SymClaims EyeSpec SymEye EyeClaims.
Local Notation length := Datatypes.length.
Open Scope nat_scope.

(** C75: where suicide is forbidden, stones with two disjoint vital regions stay on the board whatever is played, as long as their owner does not play inside the regions; they keep their regions. *)
Theorem C75_unconditional_life dbg n b w c X F g g' : greach dbg n b w g -> forbids_suicide (gm_rule g) = true ->
  alive n (position g) c X F -> rtc (spares dbg n c F) g g' ->
  (forall x, x ∈ X -> position g' x = Some c) /\ alive n (position g') c X F.
Proof. exact (benson dbg n b w c X F g g'). Qed.
Print Assumptions C75_unconditional_life.

Example C75_unconditional_life_case dbg : exists g b w g', greach dbg 5 b w g /\ forbids_suicide (gm_rule g) = true /\
  alive 5 (position g) Black wall [[(0, 0)]; [(0, 2); (0, 3)]] /\ position g (0, 3) = Some White /\
  try_play dbg g (MPlay 0 0) = Ok (g, Refused ESuicide) /\ try_play dbg g (MPlay 0 2) = Ok (g, Refused ESuicide) /\
  try_play dbg g (MPlay 3 3) = Ok (g', Accepted) /\ rtc (spares dbg 5 Black [[(0, 0)]; [(0, 2); (0, 3)]]) g g'.
Proof. exact (case_life dbg). Qed.

(** C75: in particular a chain with two eyes is never captured, and the opponent never gets a stone into the eyes. *)
Theorem C75_two_eyes dbg n b w c p e1 e2 g g' : greach dbg n b w g -> forbids_suicide (gm_rule g) = true ->
  on n p -> position g p = Some c -> e1 <> e2 ->
  liberty n (position g) p e1 -> liberty n (position g) p e2 ->
  (forall q, on n q -> adj e1 q \/ adj e2 q -> connected n (position g) p q) ->
  rtc (spares dbg n c [[e1]; [e2]]) g g' ->
  position g' p = Some c /\ position g' e1 <> Some (opp c) /\ position g' e2 <> Some (opp c).
Proof. exact (two_eyes dbg n b w c p e1 e2 g g'). Qed.
Print Assumptions C75_two_eyes.

Example C75_two_eyes_case dbg : exists g b w g', greach dbg 5 b w g /\ forbids_suicide (gm_rule g) = true /\
  on 5 (1, 1) /\ position g (1, 1) = Some Black /\ liberty 5 (position g) (1, 1) (0, 0) /\ liberty 5 (position g) (1, 1) (0, 2) /\
  (forall q, on 5 q -> adj (0, 0) q \/ adj (0, 2) q -> connected 5 (position g) (1, 1) q) /\
  try_play dbg g (MPlay 2 1) = Ok (g', Accepted) /\ rtc (spares dbg 5 Black [[(0, 0)]; [(0, 2)]]) g g'.
Proof. exact (case_two_eyes dbg). Qed.

(** C75: where suicide is allowed the claim fails. *)
Theorem C75_with_suicide_refuted dbg : exists g b w g', greach dbg 5 b w g /\ forbids_suicide (gm_rule g) = false /\
  alive 5 (position g) Black suicide_wall [[(0, 3)]; [(1, 1); (0, 0); (0, 1); (1, 0)]] /\
  rtc (spares dbg 5 Black [[(0, 3)]; [(1, 1); (0, 0); (0, 1); (1, 0)]]) g g' /\
  forall x, x ∈ suicide_wall -> position g' x = None.
Proof. exact (suicide_breaks_life dbg). Qed.
Print Assumptions C75_with_suicide_refuted.

(** C76: the margins by area and by territory differ by the difference of the numbers of stones put on the board. *)
Theorem C76_area_and_territory order dbg n b w g k2 :
  greach dbg n b w g -> (forall l, order l ≡ₚ l) ->
  is_f32 (komi g) -> halves (komi g) k2 -> (Z.abs k2 <= 200000)%Z ->
  (fst (gm_prisoners g) < 1000000)%N -> (snd (gm_prisoners g) < 1000000)%N ->
  exists ab aw tb tw A W B V,
    calculate_score_by order dbg g (N.lor KOMI STONES) = Ok (ab, aw) /\
    calculate_score_by order dbg g (N.lor KOMI PRISONNERS) = Ok (tb, tw) /\
    halves ab A /\ halves aw W /\ halves tb B /\ halves tw V /\
    (A - W = B - V + 2 * (Z.of_nat b - Z.of_nat w))%Z.
Proof. exact (area_territory order dbg n b w g k2). Qed.
Print Assumptions C76_area_and_territory.

Example C76_area_and_territory_case dbg : exists g b w,
  greach dbg 3 b w g /\ gm_passes g = 2 /\ gm_outcome g = None /\ is_f32 (komi g) /\ halves (komi g) 13 /\ (Z.abs 13 <= 200000)%Z /\
  (fst (gm_prisoners g) < 1000000)%N /\ (snd (gm_prisoners g) < 1000000)%N /\
  outcome (fun l => l) dbg g = Ok (Some (WinnerByScore Black (f32_make 3 (-1)))).
Proof. exact (case_paused dbg). Qed.

(** C76: if each pass costs a prisoner, territory gives the margin of area, up to one point for Black if Black made the last move. *)
Theorem C76_pass_stones order dbg n s r g0 g ms k2 :
  (1 <= n) -> size_of s = (n, n) -> game_new s r = Ok g0 -> (forall l, order l ≡ₚ l) ->
  is_f32 (r_komi r) -> halves (r_komi r) k2 -> (Z.abs k2 <= 200000)%Z ->
  Forall (plain n) ms -> (N.of_nat (length ms) < 1000000)%N -> all_accepted dbg g0 ms g ->
  exists ab aw tb tw A W B V,
    calculate_score_by order dbg g (N.lor KOMI STONES) = Ok (ab, aw) /\
    calculate_score_by order dbg g (N.lor KOMI PRISONNERS) = Ok (tb, tw) /\
    halves ab A /\ halves aw W /\ halves tb B /\ halves tw V /\
    (A - W = (B + 2 * Z.of_nat (pass_moves Black White ms)) - (V + 2 * Z.of_nat (pass_moves Black Black ms))
             + (if Nat.even (length ms) then 0 else 2))%Z.
Proof. exact (pass_stones order dbg n s r g0 g ms k2). Qed.
Print Assumptions C76_pass_stones.

Example C76_pass_stones_case dbg : exists s g0 g, size_of s = (3, 3) /\ game_new s JAPANESE = Ok g0 /\
  is_f32 (r_komi JAPANESE) /\ halves (r_komi JAPANESE) 13 /\ (Z.abs 13 <= 200000)%Z /\
  Forall (plain 3) aga_moves /\ (N.of_nat (length aga_moves) < 1000000)%N /\
  all_accepted dbg g0 aga_moves g /\ gm_prisoners g = (1%N, 0%N) /\
  pass_moves Black Black aga_moves = 1 /\ pass_moves Black White aga_moves = 2.
Proof. exact (case_pass_stones dbg). Qed.

(** C77: the area scores without komi and the neutral points add up to the board. *)
Theorem C77_area_is_the_board order dbg n b w g :
  greach dbg n b w g -> (forall l, order l ≡ₚ l) ->
  exists ab aw A W d,
    calculate_score_by order dbg g STONES = Ok (ab, aw) /\ halves ab A /\ halves aw W /\
    card (neutral n (position g)) d /\ (A + W + 2 * Z.of_nat d = 2 * Z.of_nat n * Z.of_nat n)%Z.
Proof. exact (area_is_the_board order dbg n b w g). Qed.
Print Assumptions C77_area_is_the_board.

Example C77_area_is_the_board_case dbg : exists g b w,
  greach dbg 3 b w g /\ gm_passes g = 2 /\ gm_outcome g = None /\ is_f32 (komi g) /\ halves (komi g) 13 /\ (Z.abs 13 <= 200000)%Z /\
  (fst (gm_prisoners g) < 1000000)%N /\ (snd (gm_prisoners g) < 1000000)%N /\
  outcome (fun l => l) dbg g = Ok (Some (WinnerByScore Black (f32_make 3 (-1)))).
Proof. exact (case_paused dbg). Qed.

(** C78: once three positions are recorded, a game under superko without suicide has fewer than 3^(n n) (n n + 1) further stone moves, whatever passes, resumptions and refused moves come between them. *)
Theorem C78_superko_games_end dbg n k g g' : lreach dbg n g -> forbids_superko (gm_rule g) = true -> forbids_suicide (gm_rule g) = true ->
  2 < length (gm_history g) -> stone_run dbg n k g g' -> k < 3 ^ (n * n) * (n * n + 1).
Proof. exact (superko_games_end dbg n k g g'). Qed.
Print Assumptions C78_superko_games_end.

Example C78_superko_games_end_case dbg : exists g g',
  lreach dbg 9 g /\ forbids_superko (gm_rule g) = true /\ forbids_suicide (gm_rule g) = true /\
  2 < length (gm_history g) /\ stone_run dbg 9 2 g g' /\ position g (1, 1) = Some White /\ position g' (1, 1) = None.
Proof. exact (case_superko_run dbg). Qed.

(** C78: on a board that was set up, a ko can be taken and retaken for ever although superko is forbidden. *)
Theorem C78_superko_stops_every_ko_refuted dbg : exists g g', lreach dbg 4 g /\ forbids_superko (gm_rule g) = true /\ forbids_suicide (gm_rule g) = true /\
  stone_run dbg 4 2 g g' /\ same_pos 4 (position g') (position g) /\ gm_turn g' = gm_turn g /\
  gm_ko_point g' = gm_ko_point g /\ length (gm_history g) = 2 /\ length (gm_history g') = 2 /\ captures 4 (position g) (1, 2) (gm_turn g).
Proof. exact (endless_ko dbg). Qed.
Print Assumptions C78_superko_stops_every_ko_refuted.

(** C79: the positions of legal games are exactly those where every chain has a liberty; each is reached from the empty board within two moves per point. *)
Theorem C79_legal_positions dbg n s r g0 P : (1 <= n) -> size_of s = (n, n) -> game_new s r = Ok g0 -> forbids_fill_eye r = false ->
  all_breathe n P <->
  exists ms g, Forall (plain n) ms /\ length ms <= 2 * (n * n) /\ all_accepted dbg g0 ms g /\ same_pos n (position g) P.
Proof. exact (legal_positions dbg n s r g0 P). Qed.
Print Assumptions C79_legal_positions.

Example C79_legal_positions_case dbg : exists s g0 P, size_of s = (9, 9) /\ game_new s CHINESE = Ok g0 /\ forbids_fill_eye CHINESE = false /\
  all_breathe 9 P /\ P (1, 1) = Some White /\ P (1, 0) = Some Black /\ P (5, 5) = None /\ lreach dbg 9 g0.
Proof. exact (case_positions dbg). Qed.

(** C80: where suicide is forbidden, a stone of a chain with two solid eyes is still there after every random playout. *)
Theorem C80_playouts_spare_solid_eyes dbg n b w c p e1 e2 g g' shuffles fuel i : greach dbg n b w g -> forbids_suicide (gm_rule g) = true ->
  on n p -> position g p = Some c -> e1 <> e2 -> solid_eye n (position g) p e1 -> solid_eye n (position g) p e2 ->
  (forall j l, shuffles j l ≡ₚ l) -> playout fuel i shuffles dbg g = Ok g' -> position g' p = Some c.
Proof. exact (playouts_spare dbg n b w c p e1 e2 g g' shuffles fuel i). Qed.
Print Assumptions C80_playouts_spare_solid_eyes.

Example C80_playouts_spare_solid_eyes_case dbg : exists g b w g' l, greach dbg 7 b w g /\ forbids_suicide (gm_rule g) = true /\
  on 7 (1, 1) /\ position g (1, 1) = Some Black /\ solid_eye 7 (position g) (1, 1) (0, 0) /\ solid_eye 7 (position g) (1, 1) (0, 2) /\
  (forall i l, wheel i l ≡ₚ l) /\ playout 500 0 wheel dbg g = Ok g' /\
  answers dbg 7 first_move g /\ dead_stones 500 first_move dbg g = Ok l /\
  get_floating_stones dbg g = Ok [0] /\ group_no (gm_goban g) (1, 1) = Some 0 /\ is_over g = false.
Proof. exact (case_solid dbg). Qed.

(** C80: dead_stones never reports a chain with two solid eyes, whatever the tree search answers. *)
Theorem C80_solid_eyes_never_dead dbg n b w c p e1 e2 g search fuel k l : greach dbg n b w g -> forbids_suicide (gm_rule g) = true ->
  on n p -> position g p = Some c -> e1 <> e2 -> solid_eye n (position g) p e1 -> solid_eye n (position g) p e2 ->
  answers dbg n search g ->
  dead_stones fuel search dbg g = Ok l -> group_no (gm_goban g) p = Some k -> k ∉ l.
Proof. exact (never_dead dbg n b w c p e1 e2 g search fuel k l). Qed.
Print Assumptions C80_solid_eyes_never_dead.

Example C80_solid_eyes_never_dead_case dbg : exists g b w g' l, greach dbg 7 b w g /\ forbids_suicide (gm_rule g) = true /\
  on 7 (1, 1) /\ position g (1, 1) = Some Black /\ solid_eye 7 (position g) (1, 1) (0, 0) /\ solid_eye 7 (position g) (1, 1) (0, 2) /\
  (forall i l, wheel i l ≡ₚ l) /\ playout 500 0 wheel dbg g = Ok g' /\
  answers dbg 7 first_move g /\ dead_stones 500 first_move dbg g = Ok l /\
  get_floating_stones dbg g = Ok [0] /\ group_no (gm_goban g) (1, 1) = Some 0 /\ is_over g = false.
Proof. exact (case_solid dbg). Qed.

(** C80: every group dead_stones reports touches three points with the shape of an eye; groups without eyes are never reported. *)
Theorem C80_reported_groups_have_eyes dbg n b w g search fuel k l : greach dbg n b w g ->
  answers dbg n search g ->
  dead_stones fuel search dbg g = Ok l -> k ∈ l ->
  exists e1 e2 e3, NoDup [e1; e2; e3] /\ forall e, e ∈ [e1; e2; e3] ->
    on n e /\ (eye_shape n (position g) Black e \/ eye_shape n (position g) White e) /\ exists q, on n q /\ adj e q /\ group_no (gm_goban g) q = Some k.
Proof. exact (reported_have_eyes dbg n b w g search fuel k l). Qed.
Print Assumptions C80_reported_groups_have_eyes.

Example C80_reported_groups_have_eyes_case dbg : exists g b w, greach dbg 7 b w g /\ forbids_suicide (gm_rule g) = true /\
  answers dbg 7 hunter g /\ dead_stones 600 hunter dbg g = Ok [0; 2] /\ 0 ∈ [0; 2].
Proof. exact (case_reported dbg). Qed.

(** C81: games whose boards and prisoners correspond under a symmetry of board and colours get corresponding scores, in whatever order either traversal goes; with komi, if the colours are kept and the komi is the same. *)
Theorem C81_scores_correspond n σ τ γ order order' dbg dbg' b w b' w' g h flags :
  board_sym n σ τ γ -> greach dbg n b w g -> greach dbg' n b' w' h -> (forall l, order l ≡ₚ l) -> (forall l, order' l ≡ₚ l) ->
  image n σ γ (position g) (position h) -> image_caught γ g h ->
  N.testbit flags 1 = false \/ (γ Black = Black /\ komi h = komi g) ->
  exists s s', calculate_score_by order dbg g flags = Ok s /\ calculate_score_by order' dbg' h flags = Ok s' /\
    forall c, side (γ c) s' = side c s.
Proof. exact (sym_scores n σ τ γ order order' dbg dbg' b w b' w' g h flags). Qed.
Print Assumptions C81_scores_correspond.

Example C81_scores_correspond_case dbg dbg' : exists g h b w b' w',
  board_sym 5 (square_symmetry 5 5) (square_symmetry 5 6) opp /\ greach dbg 5 b w g /\ greach dbg' 5 b' w' h /\
  image_game 5 (square_symmetry 5 5) opp g h /\ image_caught opp g h /\ flag_score (gm_rule h) = flag_score (gm_rule g) /\
  (fst (gm_prisoners g) < 1000000)%N /\ (snd (gm_prisoners g) < 1000000)%N /\ N.testbit (flag_score (gm_rule g)) 1 = false /\
  calculate_score_by (fun l => l) dbg g 5 = Ok (f32_of_N 4, f32_of_N 1) /\ outcome (fun l => l) dbg g = Ok (Some (WinnerByScore Black (f32_of_N 3))) /\
  outcome (fun l => l) dbg' h = Ok (Some (WinnerByScore White (f32_of_N 3))).
Proof. exact (case_scores dbg dbg'). Qed.

(** C81: such games, over alike and scored by the same flags, have corresponding outcomes. *)
Theorem C81_outcomes_correspond n σ τ γ order order' dbg dbg' b w b' w' g h :
  board_sym n σ τ γ -> greach dbg n b w g -> greach dbg' n b' w' h -> (forall l, order l ≡ₚ l) -> (forall l, order' l ≡ₚ l) ->
  image_game n σ γ g h -> image_caught γ g h -> flag_score (gm_rule h) = flag_score (gm_rule g) ->
  N.testbit (flag_score (gm_rule g)) 1 = false \/ (γ Black = Black /\ komi h = komi g) ->
  exists o, outcome order dbg g = Ok o /\ outcome order' dbg' h = Ok (option_map (image_end γ) o).
Proof. exact (sym_outcome n σ τ γ order order' dbg dbg' b w b' w' g h). Qed.
Print Assumptions C81_outcomes_correspond.

Example C81_outcomes_correspond_case dbg dbg' : exists g h b w b' w',
  board_sym 5 (square_symmetry 5 5) (square_symmetry 5 6) opp /\ greach dbg 5 b w g /\ greach dbg' 5 b' w' h /\
  image_game 5 (square_symmetry 5 5) opp g h /\ image_caught opp g h /\ flag_score (gm_rule h) = flag_score (gm_rule g) /\
  (fst (gm_prisoners g) < 1000000)%N /\ (snd (gm_prisoners g) < 1000000)%N /\ N.testbit (flag_score (gm_rule g)) 1 = false /\
  calculate_score_by (fun l => l) dbg g 5 = Ok (f32_of_N 4, f32_of_N 1) /\ outcome (fun l => l) dbg g = Ok (Some (WinnerByScore Black (f32_of_N 3))) /\
  outcome (fun l => l) dbg' h = Ok (Some (WinnerByScore White (f32_of_N 3))).
Proof. exact (case_scores dbg dbg'). Qed.

(** C59: where no empty corner of a point touches a stone of the opponent, the eye check gives the same answer on boards that correspond under a symmetry of board and colours. *)
Theorem C59_eye_symmetric n σ τ γ dbg dbg' b w b' w' g h p c : board_sym n σ τ γ -> greach dbg n b w g -> greach dbg' n b' w' h ->
  image n σ γ (position g) (position h) -> on n p ->
  (forall q, on n q -> diag p q -> position g q = None -> ~ attacked n (position g) c q) ->
  exists v, check_eye dbg g (p, c) = Ok v /\ check_eye dbg' h (σ p, γ c) = Ok v.
Proof. exact (eye_image n σ τ γ dbg dbg' b w b' w' g h p c). Qed.
Print Assumptions C59_eye_symmetric.

Example C59_eye_symmetric_case dbg dbg' : exists b w b' w' g h, board_sym 5 turn_half turn_half (fun c => c) /\ greach dbg 5 b w g /\ greach dbg' 5 b' w' h /\
  image 5 turn_half (fun c => c) (position g) (position h) /\ on 5 (2, 2) /\
  (forall q, on 5 q -> diag (2, 2) q -> position g q = None -> ~ attacked 5 (position g) Black q) /\
  position g (3, 1) = None /\ diag (2, 2) (3, 1) /\ check_eye dbg g ((2, 2), Black) = Ok true.
Proof. exact (case_eye_image dbg dbg'). Qed.
