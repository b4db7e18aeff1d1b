(** Legal games on boards whose width divides their height: C103, C104, C105 *)
From stdpp Require Import relations sorting strings.
From Verif Require Import VerdictSpec TableSpec EndSpec AreaSpec Spec Observe Ops RectSpec RectVerdictSpec RectEndSpec RectTableSpec RectReach TableClaims BelowClaims RectLegalClaims RectEnd RectTable RectPosition.
Local Notation length := Datatypes.length.
Open Scope nat_scope.

(** C103: on square boards the legal games meant here are the ones of the other properties. *)
Theorem C103_square_games dbg n g : rlreach dbg (n, n) g <-> lreach dbg n g.
Proof. exact (square_legal dbg n g). Qed.
Print Assumptions C103_square_games.

(** C103: in a legal game every chain on the board has a liberty. *)
Theorem C103_every_chain_breathes dbg n g : Nat.divide (snd n) (fst n) -> rlreach dbg n g -> rall_breathe n (position g).
Proof. exact (rclaim_breathes dbg n g). Qed.
Print Assumptions C103_every_chain_breathes.

Example C103_every_chain_breathes_case dbg : exists g g',
  Nat.divide 4 8 /\ rlreach dbg (8, 4) g /\ ron (8, 4) (1, 2) /\ forbids_ko (gm_rule g) = true /\ forbids_suicide (gm_rule g) = true /\
  forbids_superko (gm_rule g) = false /\ forbids_fill_eye (gm_rule g) = false /\
  try_play dbg g (MPlay 1 2) = Ok (g', Accepted) /\ position g (1, 1) = Some White /\ position g' (1, 1) = None /\ rlreach dbg (8, 4) g' /\
  ron (8, 4) (1, 1) /\ try_play dbg g' (MPlay 1 1) = Ok (g', Refused EKo) /\
  ron (8, 4) (7, 3) /\ exists g'', try_play dbg g' (MPlay 7 3) = Ok (g'', Accepted).
Proof. exact (rcase_legal dbg). Qed.

(** C103: an accepted stone was put on an empty point and changes the position as the rules of Tromp and Taylor say. *)
Theorem C103_moves_are_tromp_taylor dbg n g x y g' :
  Nat.divide (snd n) (fst n) -> rlreach dbg n g -> ron n (x, y) -> try_play dbg g (MPlay x y) = Ok (g', Accepted) ->
  position g (x, y) = None /\ rtromp_taylor_move n (position g) (x, y) (gm_turn g) (position g').
Proof. exact (rclaim_tromp_taylor dbg n g x y g'). Qed.
Print Assumptions C103_moves_are_tromp_taylor.

Example C103_moves_are_tromp_taylor_case dbg : exists g g',
  Nat.divide 4 8 /\ rlreach dbg (8, 4) g /\ ron (8, 4) (1, 2) /\ forbids_ko (gm_rule g) = true /\ forbids_suicide (gm_rule g) = true /\
  forbids_superko (gm_rule g) = false /\ forbids_fill_eye (gm_rule g) = false /\
  try_play dbg g (MPlay 1 2) = Ok (g', Accepted) /\ position g (1, 1) = Some White /\ position g' (1, 1) = None /\ rlreach dbg (8, 4) g' /\
  ron (8, 4) (1, 1) /\ try_play dbg g' (MPlay 1 1) = Ok (g', Refused EKo) /\
  ron (8, 4) (7, 3) /\ exists g'', try_play dbg g' (MPlay 7 3) = Ok (g'', Accepted).
Proof. exact (rcase_legal dbg). Qed.

(** C103: with the ko flag and without the superko flag, a move is refused for ko exactly if it would bring back the position before the last stone. *)
Theorem C103_simple_ko_exact dbg n g0 x y g1 a b :
  Nat.divide (snd n) (fst n) -> rlreach dbg n g0 -> forbids_ko (gm_rule g0) = true -> forbids_suicide (gm_rule g0) = true ->
  forbids_superko (gm_rule g0) = false ->
  ron n (x, y) -> try_play dbg g0 (MPlay x y) = Ok (g1, Accepted) -> ron n (a, b) ->
  try_play dbg g1 (MPlay a b) = Ok (g1, Refused EKo) <->
  position g1 (a, b) = None /\
  exists R, rgo_move false n (position g1) (a, b) (gm_turn g1) R /\ rsame_pos n R (position g0).
Proof. exact (rclaim_simple_ko dbg n g0 x y g1 a b). Qed.
Print Assumptions C103_simple_ko_exact.

Example C103_simple_ko_exact_case dbg : exists g g',
  Nat.divide 4 8 /\ rlreach dbg (8, 4) g /\ ron (8, 4) (1, 2) /\ forbids_ko (gm_rule g) = true /\ forbids_suicide (gm_rule g) = true /\
  forbids_superko (gm_rule g) = false /\ forbids_fill_eye (gm_rule g) = false /\
  try_play dbg g (MPlay 1 2) = Ok (g', Accepted) /\ position g (1, 1) = Some White /\ position g' (1, 1) = None /\ rlreach dbg (8, 4) g' /\
  ron (8, 4) (1, 1) /\ try_play dbg g' (MPlay 1 1) = Ok (g', Refused EKo) /\
  ron (8, 4) (7, 3) /\ exists g'', try_play dbg g' (MPlay 7 3) = Ok (g'', Accepted).
Proof. exact (rcase_legal dbg). Qed.

(** C103: a move refused for ko would repeat a recorded position. *)
Theorem C103_ko_refuses_repetitions_only dbg n g a b :
  Nat.divide (snd n) (fst n) -> rlreach dbg n g -> forbids_suicide (gm_rule g) = true -> ron n (a, b) ->
  try_play dbg g (MPlay a b) = Ok (g, Refused EKo) ->
  position g (a, b) = None /\ ~ rsuicidal n (position g) (a, b) (gm_turn g) /\
  exists R y, rgo_move false n (position g) (a, b) (gm_turn g) R /\ y ∈ gm_history g /\ rsame_pos n R (pos_of y).
Proof. exact (rclaim_ko_repetition dbg n g a b). Qed.
Print Assumptions C103_ko_refuses_repetitions_only.

Example C103_ko_refuses_repetitions_only_case dbg : exists g,
  Nat.divide 1 3 /\ rlreach dbg (3, 1) g /\ forbids_superko (gm_rule g) = true /\ forbids_suicide (gm_rule g) = true /\
  forbids_fill_eye (gm_rule g) = false /\ ron (3, 1) (0, 0) /\ 2 < length (gm_history g) /\
  gm_ko_point g = None /\ try_play dbg g (MPlay 0 0) = Ok (g, Refused EKo) /\ try_play dbg g (MPlay 0 0) <> Panic.
Proof. exact (rcase_superko dbg). Qed.

(** C103: with the superko flag, from the third stone on, exactly the capturing moves that repeat a recorded position are refused for ko. *)
Theorem C103_superko_exact dbg n g a b :
  Nat.divide (snd n) (fst n) -> rlreach dbg n g -> forbids_superko (gm_rule g) = true -> forbids_suicide (gm_rule g) = true ->
  forbids_fill_eye (gm_rule g) = false -> ron n (a, b) -> (2 < length (gm_history g))%nat ->
  try_play dbg g (MPlay a b) <> Panic ->
  (try_play dbg g (MPlay a b) = Ok (g, Refused EKo) <->
   gm_passes g <> 2%nat /\ position g (a, b) = None /\ ~ rsuicidal n (position g) (a, b) (gm_turn g) /\
   rcaptures n (position g) (a, b) (gm_turn g) /\ rrepeats_history n g (a, b)).
Proof. exact (rsuperko_exact dbg n g a b). Qed.
Print Assumptions C103_superko_exact.

Example C103_superko_exact_case dbg : exists g,
  Nat.divide 1 3 /\ rlreach dbg (3, 1) g /\ forbids_superko (gm_rule g) = true /\ forbids_suicide (gm_rule g) = true /\
  forbids_fill_eye (gm_rule g) = false /\ ron (3, 1) (0, 0) /\ 2 < length (gm_history g) /\
  gm_ko_point g = None /\ try_play dbg g (MPlay 0 0) = Ok (g, Refused EKo) /\ try_play dbg g (MPlay 0 0) <> Panic.
Proof. exact (rcase_superko dbg). Qed.

(** C103: with the superko flag an accepted capturing move repeats no recorded position. *)
Theorem C103_capturing_moves_never_repeat dbg n g a b g' :
  Nat.divide (snd n) (fst n) -> rlreach dbg n g -> forbids_superko (gm_rule g) = true -> ron n (a, b) ->
  try_play dbg g (MPlay a b) = Ok (g', Accepted) -> (2 < length (gm_history g))%nat ->
  rcaptures n (position g) (a, b) (gm_turn g) ->
  forall y, y ∈ gm_history g -> ~ rsame_pos n (position g') (pos_of y).
Proof. exact (rclaim_capturing dbg n g a b g'). Qed.
Print Assumptions C103_capturing_moves_never_repeat.

Example C103_capturing_moves_never_repeat_case dbg : exists g g1 g',
  Nat.divide 4 8 /\ rlreach dbg (8, 4) g /\ forbids_superko (gm_rule g) = true /\ forbids_suicide (gm_rule g) = true /\
  ron (8, 4) (1, 2) /\ 2 < length (gm_history g) /\ try_play dbg g (MPlay 1 2) = Ok (g1, Accepted) /\ rcaptures (8, 4) (position g) (1, 2) (gm_turn g) /\
  rstone_run dbg (8, 4) 2 g g' /\ position g (1, 1) = Some White /\ position g' (1, 1) = None.
Proof. exact (rcase_run dbg). Qed.

(** C103: which moves a game under Chinese-like rules accepts. *)
Theorem C103_chinese_legality dbg n g a b :
  Nat.divide (snd n) (fst n) -> rlreach dbg n g -> forbids_superko (gm_rule g) = true -> forbids_suicide (gm_rule g) = true ->
  forbids_fill_eye (gm_rule g) = false -> ron n (a, b) -> (2 < length (gm_history g))%nat ->
  try_play dbg g (MPlay a b) <> Panic ->
  ((exists g', try_play dbg g (MPlay a b) = Ok (g', Accepted)) <->
   gm_passes g <> 2%nat /\ position g (a, b) = None /\ ~ rsuicidal n (position g) (a, b) (gm_turn g) /\
   ~ (rcaptures n (position g) (a, b) (gm_turn g) /\ rrepeats_history n g (a, b))).
Proof. exact (rchinese_legal dbg n g a b). Qed.
Print Assumptions C103_chinese_legality.

Example C103_chinese_legality_case dbg : exists g,
  Nat.divide 1 3 /\ rlreach dbg (3, 1) g /\ forbids_superko (gm_rule g) = true /\ forbids_suicide (gm_rule g) = true /\
  forbids_fill_eye (gm_rule g) = false /\ ron (3, 1) (0, 0) /\ 2 < length (gm_history g) /\
  gm_ko_point g = None /\ try_play dbg g (MPlay 0 0) = Ok (g, Refused EKo) /\ try_play dbg g (MPlay 0 0) <> Panic.
Proof. exact (rcase_superko dbg). Qed.

(** C104: any list of checked calls to a new game is answered, and the answers and the game are those of the abstract game on the board of that size. *)
Theorem C104_games_follow_the_rules dbg n s r ops : Nat.divide (snd n) (fst n) -> (1 <= fst n <= 19)%nat -> (1 <= snd n)%nat -> size_of s = n -> (forall o, o ∈ ops -> rguarded n o) -> (N.of_nat (all_stones ops) <= 65535)%N ->
  exists g g' l t', game_new s r = Ok g /\ calls dbg g ops = Ok (g', l) /\ rtable_run n (flag_illegal r) start ops l t' /\ rsame_table n (table_of g') t'.
Proof. exact (rgame_guarded dbg n s r ops). Qed.
Print Assumptions C104_games_follow_the_rules.

Example C104_games_follow_the_rules_case dbg : exists g g' t', Nat.divide 4 8 /\ game_new (Custom 8 4) JAPANESE = Ok g /\ size_of (Custom 8 4) = (8, 4) /\
  (forall o, o ∈ tall_ops -> rguarded (8, 4) o) /\ (N.of_nat (all_stones tall_ops) <= 65535)%N /\
  rgreach dbg (8, 4) 0 0 g /\ rsame_table (8, 4) (table_of g) start /\
  calls dbg g tall_ops = Ok (g', ko_answers) /\ rtable_run (8, 4) (flag_illegal JAPANESE) start tall_ops ko_answers t' /\ rsame_table (8, 4) (table_of g') t' /\
  t_pos t' (1, 1) = Some White /\ t_pos t' (1, 2) = None /\ t_outcome t' = Some (WinnerByResign White) /\ t_prisoners t' = (1, 1)%N.
Proof. exact (rcase_game dbg). Qed.

(** C104: every run of the abstract game from the start is a run of the library, with the same answers. *)
Theorem C104_rules_are_followed dbg n s r g ops l t' : Nat.divide (snd n) (fst n) -> (1 <= fst n)%nat -> (1 <= snd n)%nat -> size_of s = n -> game_new s r = Ok g ->
  rtable_run n (flag_illegal r) start ops l t' -> (N.of_nat (all_stones ops) <= 65535)%N ->
  exists g', calls dbg g ops = Ok (g', l) /\ rsame_table n (table_of g') t'.
Proof. exact (rgame_follows dbg n s r g ops l t'). Qed.
Print Assumptions C104_rules_are_followed.

Example C104_rules_are_followed_case dbg : exists g g' t', Nat.divide 4 8 /\ game_new (Custom 8 4) JAPANESE = Ok g /\ size_of (Custom 8 4) = (8, 4) /\
  (forall o, o ∈ tall_ops -> rguarded (8, 4) o) /\ (N.of_nat (all_stones tall_ops) <= 65535)%N /\
  rgreach dbg (8, 4) 0 0 g /\ rsame_table (8, 4) (table_of g) start /\
  calls dbg g tall_ops = Ok (g', ko_answers) /\ rtable_run (8, 4) (flag_illegal JAPANESE) start tall_ops ko_answers t' /\ rsame_table (8, 4) (table_of g') t' /\
  t_pos t' (1, 1) = Some White /\ t_pos t' (1, 2) = None /\ t_outcome t' = Some (WinnerByResign White) /\ t_prisoners t' = (1, 1)%N.
Proof. exact (rcase_game dbg). Qed.

(** C104: the same from any reachable game. *)
Theorem C104_any_reachable_game_goes_on dbg n f ops b w g t l t' : Nat.divide (snd n) (fst n) -> rgreach dbg n b w g -> flag_illegal (gm_rule g) = f -> rsame_table n (table_of g) t ->
  rtable_run n f t ops l t' -> (N.of_nat (b + w + all_stones ops) <= 65535)%N ->
  exists g', calls dbg g ops = Ok (g', l) /\ rsame_table n (table_of g') t'.
Proof. exact (rcalls_follow dbg n f ops b w g t l t'). Qed.
Print Assumptions C104_any_reachable_game_goes_on.

Example C104_any_reachable_game_goes_on_case dbg : exists g g' t', Nat.divide 4 8 /\ game_new (Custom 8 4) JAPANESE = Ok g /\ size_of (Custom 8 4) = (8, 4) /\
  (forall o, o ∈ tall_ops -> rguarded (8, 4) o) /\ (N.of_nat (all_stones tall_ops) <= 65535)%N /\
  rgreach dbg (8, 4) 0 0 g /\ rsame_table (8, 4) (table_of g) start /\
  calls dbg g tall_ops = Ok (g', ko_answers) /\ rtable_run (8, 4) (flag_illegal JAPANESE) start tall_ops ko_answers t' /\ rsame_table (8, 4) (table_of g') t' /\
  t_pos t' (1, 1) = Some White /\ t_pos t' (1, 2) = None /\ t_outcome t' = Some (WinnerByResign White) /\ t_prisoners t' = (1, 1)%N.
Proof. exact (rcase_game dbg). Qed.

(** C104: checked calls to any reachable game are answered as the abstract game says. *)
Theorem C104_guarded_calls_are_answered dbg n ops b w g : Nat.divide (snd n) (fst n) -> rgreach dbg n b w g -> (forall o, o ∈ ops -> rguarded n o) -> (N.of_nat (b + w + all_stones ops) <= 65535)%N ->
  exists g' l, calls dbg g ops = Ok (g', l) /\ rtable_run n (flag_illegal (gm_rule g)) (table_of g) ops l (table_of g').
Proof. exact (rcalls_sim dbg n ops b w g). Qed.
Print Assumptions C104_guarded_calls_are_answered.

Example C104_guarded_calls_are_answered_case dbg : exists g g' t', Nat.divide 4 8 /\ game_new (Custom 8 4) JAPANESE = Ok g /\ size_of (Custom 8 4) = (8, 4) /\
  (forall o, o ∈ tall_ops -> rguarded (8, 4) o) /\ (N.of_nat (all_stones tall_ops) <= 65535)%N /\
  rgreach dbg (8, 4) 0 0 g /\ rsame_table (8, 4) (table_of g) start /\
  calls dbg g tall_ops = Ok (g', ko_answers) /\ rtable_run (8, 4) (flag_illegal JAPANESE) start tall_ops ko_answers t' /\ rsame_table (8, 4) (table_of g') t' /\
  t_pos t' (1, 1) = Some White /\ t_pos t' (1, 2) = None /\ t_outcome t' = Some (WinnerByResign White) /\ t_prisoners t' = (1, 1)%N.
Proof. exact (rcase_game dbg). Qed.

(** C104: the abstract game has one answer to each call. *)
Theorem C104_abstract_game_is_deterministic n f ops t u l l' t' u' : Nat.divide (snd n) (fst n) -> (1 <= fst n <= 19)%nat -> (1 <= snd n)%nat -> rsame_table n t u ->
  rtable_run n f t ops l t' -> rtable_run n f u ops l' u' -> l = l' /\ rsame_table n t' u'.
Proof. exact (rgame_det n f ops t u l l' t' u'). Qed.
Print Assumptions C104_abstract_game_is_deterministic.

Example C104_abstract_game_is_deterministic_case dbg : exists g g' t', Nat.divide 4 8 /\ game_new (Custom 8 4) JAPANESE = Ok g /\ size_of (Custom 8 4) = (8, 4) /\
  (forall o, o ∈ tall_ops -> rguarded (8, 4) o) /\ (N.of_nat (all_stones tall_ops) <= 65535)%N /\
  rgreach dbg (8, 4) 0 0 g /\ rsame_table (8, 4) (table_of g) start /\
  calls dbg g tall_ops = Ok (g', ko_answers) /\ rtable_run (8, 4) (flag_illegal JAPANESE) start tall_ops ko_answers t' /\ rsame_table (8, 4) (table_of g') t' /\
  t_pos t' (1, 1) = Some White /\ t_pos t' (1, 2) = None /\ t_outcome t' = Some (WinnerByResign White) /\ t_prisoners t' = (1, 1)%N.
Proof. exact (rcase_game dbg). Qed.

(** C104: debug and release builds answer checked calls alike and reach the same table. *)
Theorem C104_builds_agree n s r ops : Nat.divide (snd n) (fst n) -> (1 <= fst n <= 19)%nat -> (1 <= snd n)%nat -> size_of s = n ->
  (forall o, o ∈ ops -> rguarded n o) -> (N.of_nat (all_stones ops) <= 65535)%N ->
  exists g g1 g2 l, game_new s r = Ok g /\ calls true g ops = Ok (g1, l) /\ calls false g ops = Ok (g2, l) /\ rsame_table n (table_of g1) (table_of g2).
Proof. exact (rgame_builds n s r ops). Qed.
Print Assumptions C104_builds_agree.

Example C104_builds_agree_case dbg : exists g g' t', Nat.divide 4 8 /\ game_new (Custom 8 4) JAPANESE = Ok g /\ size_of (Custom 8 4) = (8, 4) /\
  (forall o, o ∈ tall_ops -> rguarded (8, 4) o) /\ (N.of_nat (all_stones tall_ops) <= 65535)%N /\
  rgreach dbg (8, 4) 0 0 g /\ rsame_table (8, 4) (table_of g) start /\
  calls dbg g tall_ops = Ok (g', ko_answers) /\ rtable_run (8, 4) (flag_illegal JAPANESE) start tall_ops ko_answers t' /\ rsame_table (8, 4) (table_of g') t' /\
  t_pos t' (1, 1) = Some White /\ t_pos t' (1, 2) = None /\ t_outcome t' = Some (WinnerByResign White) /\ t_prisoners t' = (1, 1)%N.
Proof. exact (rcase_game dbg). Qed.

(** C105: with the superko and suicide flags, from the third stone on, fewer stones than three to the number of points times the number of points plus one are accepted, whatever passes, resignations and refused moves come between. *)
Theorem C105_superko_games_end dbg n k g g' : Nat.divide (snd n) (fst n) -> rlreach dbg n g -> forbids_superko (gm_rule g) = true -> forbids_suicide (gm_rule g) = true ->
  2 < length (gm_history g) -> rstone_run dbg n k g g' -> k < 3 ^ (fst n * snd n) * (fst n * snd n + 1).
Proof. exact (rsuperko_games_end dbg n k g g'). Qed.
Print Assumptions C105_superko_games_end.

Example C105_superko_games_end_case dbg : exists g g1 g',
  Nat.divide 4 8 /\ rlreach dbg (8, 4) g /\ forbids_superko (gm_rule g) = true /\ forbids_suicide (gm_rule g) = true /\
  ron (8, 4) (1, 2) /\ 2 < length (gm_history g) /\ try_play dbg g (MPlay 1 2) = Ok (g1, Accepted) /\ rcaptures (8, 4) (position g) (1, 2) (gm_turn g) /\
  rstone_run dbg (8, 4) 2 g g' /\ position g (1, 1) = Some White /\ position g' (1, 1) = None.
Proof. exact (rcase_run dbg). Qed.

(** C105: the positions that accepted stones and passes lead to from a new game are those in which every chain has a liberty; twice the number of points moves are enough. *)
Theorem C105_legal_positions dbg n s r g0 P : Nat.divide (snd n) (fst n) -> (1 <= fst n) -> (1 <= snd n) -> size_of s = n -> game_new s r = Ok g0 -> forbids_fill_eye r = false ->
  rall_breathe n P <->
  exists ms g, Forall (rplain n) ms /\ length ms <= 2 * (fst n * snd n) /\ all_accepted dbg g0 ms g /\ rsame_pos n (position g) P.
Proof. exact (rlegal_positions dbg n s r g0 P). Qed.
Print Assumptions C105_legal_positions.

Example C105_legal_positions_case dbg : exists g0 P, Nat.divide 4 8 /\ size_of (Custom 8 4) = (8, 4) /\ game_new (Custom 8 4) CHINESE = Ok g0 /\ forbids_fill_eye CHINESE = false /\
  rall_breathe (8, 4) P /\ P (1, 1) = Some White /\ P (1, 0) = Some Black /\ P (7, 3) = None /\ rlreach dbg (8, 4) g0.
Proof. exact (rcase_positions dbg). Qed.
