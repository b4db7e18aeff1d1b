(** Built and imported games on tall boards, sizes: C115, C116 *)
From stdpp Require Import relations sorting strings.
From Verif Require Import Spec Reach Observe Samples Builder Sgf SgfSpec BuildSpec RectReach RectBuildSpec SgfFacts RectBuild SizeKept SizeClaims.
Local Notation length := Datatypes.length.
Open Scope nat_scope.

(** C115: a built game is the state of the abstract game after the moves of the builder, played from the table that the builder describes. *)
Theorem C115_built_games dbg n bl t l t' : Nat.divide (snd n) (fst n) -> 1 <= fst n <= 19 -> 1 <= snd n -> b_size bl = n ->
  NoDup (setup_stones bl).*1 -> (forall s, s ∈ setup_stones bl -> ron n (fst s)) ->
  ropening n bl t -> rtable_run n (flag_illegal (b_rule bl)) t (List.map OPlay (b_moves bl)) l t' ->
  (N.of_nat (length (setup_stones bl) + all_stones (List.map OPlay (b_moves bl))) <= 65535)%N ->
  exists g, build dbg bl = (builder_default, Ok g) /\ rsame_table n (table_of g) t' /\
    komi g = default (r_komi (b_rule bl)) (b_komi bl).
Proof. exact (rbuild_follows dbg n bl t l t'). Qed.
Print Assumptions C115_built_games.

Example C115_built_games_case : exists t l t', Nat.divide 4 8 /\ b_size tall_builder = (8, 4) /\
  NoDup (setup_stones tall_builder).*1 /\ (forall s, s ∈ setup_stones tall_builder -> ron (8, 4) (fst s)) /\
  ropening (8, 4) tall_builder t /\ rtable_run (8, 4) (flag_illegal (b_rule tall_builder)) t (List.map OPlay (b_moves tall_builder)) l t' /\
  (N.of_nat (length (setup_stones tall_builder) + all_stones (List.map OPlay (b_moves tall_builder))) <= 65535)%N /\ after_tall t'.
Proof. exact rcase_built. Qed.

(** C115: an imported game is the state of the abstract game after the moves of the record, played from the table that its root describes on the board with as many rows as the first number of the size says. *)
Theorem C115_imported_games dbg n root rest t l t' : Nat.divide (snd n) (fst n) -> 1 <= fst n <= 19 -> 1 <= snd n -> supported dbg root rest ->
  (fst (record_size root) mod 256 = N.of_nat (fst n) /\ snd (record_size root) mod 256 = N.of_nat (snd n))%N ->
  NoDup (record_stones root).*1 -> (forall s, s ∈ record_stones root -> ron n (fst s)) ->
  rrecord_opening n root t -> rtable_run n (flag_illegal (record_rule root)) t (List.map OPlay (record_moves rest)) l t' ->
  (N.of_nat (length (record_stones root) + all_stones (List.map OPlay (record_moves rest))) <= 65535)%N ->
  exists g, from_sgf_nodes dbg (root :: rest) = Ok g /\ rsame_table n (table_of g) t' /\
    komi g = default (r_komi (record_rule root)) (last_said said_komi root).
Proof. exact (rimport_follows dbg n root rest t l t'). Qed.
Print Assumptions C115_imported_games.

Example C115_imported_games_case dbg : exists t l t', supported dbg tall_root tall_rest /\
  (fst (record_size tall_root) mod 256 = N.of_nat 8 /\ snd (record_size tall_root) mod 256 = N.of_nat 4)%N /\
  NoDup (record_stones tall_root).*1 /\ (forall s, s ∈ record_stones tall_root -> ron (8, 4) (fst s)) /\
  rrecord_opening (8, 4) tall_root t /\
  rtable_run (8, 4) (flag_illegal (record_rule tall_root)) t (List.map OPlay (record_moves tall_rest)) l t' /\
  (N.of_nat (length (record_stones tall_root) + all_stones (List.map OPlay (record_moves tall_rest))) <= 65535)%N /\ after_tall t'.
Proof. exact (rcase_import dbg). Qed.

(** C115: moves that the abstract game accepts can be carried out in this way. *)
Theorem C115_accepted_moves n f ms : forall t l t', rtable_run n f t (List.map OTry ms) l t' -> (forall a, a ∈ l -> a = Some Accepted) ->
  rtable_run n f t (List.map OPlay ms) (List.map (fun _ => None) ms) t'.
Proof. exact (raccepted_run n f ms). Qed.
Print Assumptions C115_accepted_moves.

Example C115_accepted_moves_case : exists t l t', rtable_run (8, 4) (flag_illegal JAPANESE) t (List.map OTry (record_moves tall_rest)) l t' /\
  (forall a, a ∈ l -> a = Some Accepted) /\ after_tall t'.
Proof. exact rcase_accepted. Qed.

(** C116: no call changes the size of the board, the prohibitions or the way of counting, in whatever state the game is. *)
Theorem C116_calls_keep_size_and_rules dbg ops : forall g g' l, calls dbg g ops = Ok (g', l) ->
  gsize (gm_goban g') = gsize (gm_goban g) /\ flag_illegal (gm_rule g') = flag_illegal (gm_rule g) /\ flag_score (gm_rule g') = flag_score (gm_rule g).
Proof. exact (calls_keep dbg ops). Qed.
Print Assumptions C116_calls_keep_size_and_rules.

Example C116_calls_keep_size_and_rules_case dbg : exists g g' l, game_new Nine JAPANESE = Ok g /\ gsize (gm_goban g) = (9, 9) /\ calls dbg g kept_ops = Ok (g', l) /\ length l = 8 /\
  position g' (0, 0) = Some White.
Proof. exact (case_kept dbg). Qed.

(** C116: a built game has the size and the rules that the builder was told. *)
Theorem C116_built_size_and_rules dbg bl g : snd (build dbg bl) = Ok g -> gsize (gm_goban g) = b_size bl /\
  flag_illegal (gm_rule g) = flag_illegal (b_rule bl) /\ flag_score (gm_rule g) = flag_score (b_rule bl).
Proof. exact (build_size dbg bl g). Qed.
Print Assumptions C116_built_size_and_rules.

Example C116_built_size_and_rules_case dbg : exists g, supported dbg tall_root tall_rest /\ from_sgf_nodes dbg (tall_root :: tall_rest) = Ok g /\
  record_size tall_root = (8, 4)%N /\ record_builder tall_root tall_rest = tall_builder /\ snd (build dbg tall_builder) = Ok g.
Proof. exact (case_import_size dbg). Qed.

(** C116: an imported board has as many rows as the first number of the size says, the number of columns, and as many columns as the second, the number of rows (modulo 256). *)
Theorem C116_imported_size dbg root rest g : supported dbg root rest -> from_sgf_nodes dbg (root :: rest) = Ok g ->
  fst (gsize (gm_goban g)) = N.to_nat (fst (record_size root) mod 256) /\
  snd (gsize (gm_goban g)) = N.to_nat (snd (record_size root) mod 256).
Proof. exact (import_size dbg root rest g). Qed.
Print Assumptions C116_imported_size.

Example C116_imported_size_case dbg : exists g, supported dbg tall_root tall_rest /\ from_sgf_nodes dbg (tall_root :: tall_rest) = Ok g /\
  record_size tall_root = (8, 4)%N /\ record_builder tall_root tall_rest = tall_builder /\ snd (build dbg tall_builder) = Ok g.
Proof. exact (case_import_size dbg). Qed.

(** C116: so records of boards that are not square are not followed: in a record of three columns and six rows a stone is captured that the imported game still shows. *)
Theorem C116_imported_boards_refuted dbg : exists t l t' g,
  supported dbg strip_root strip_rest /\ record_size strip_root = (3, 6)%N /\
  rrecord_opening (6, 3) strip_root t /\
  rtable_run (6, 3) (flag_illegal (record_rule strip_root)) t (List.map OPlay (record_moves strip_rest)) l t' /\
  from_sgf_nodes dbg (strip_root :: strip_rest) = Ok g /\ gsize (gm_goban g) = (3, 6) /\
  t_pos t' (5, 0) = None /\ position g (5, 0) = Some White.
Proof. exact (strip_lost dbg). Qed.
Print Assumptions C116_imported_boards_refuted.
