(** Properties of queries, iterators and point checks, and whole games against the abstract game: C69-C74, C82-C86 *)
From stdpp Require Import relations sorting strings.
From Verif Require Import Spec Reach Observe ScoreSpec RoundSpec PlayoutSpec VerdictSpec TableSpec GroupMore Samples GameFacts VerdictFacts TableFacts QueryFacts PlayClaims TableClaims CaseFacts RoundClaims MoreClaims Coord CoordClaims Builder BuildSpec Glue BuildClaims GlueFacts.
Local Notation length := Datatypes.length.
Open Scope nat_scope.

(** C69: the queries about a point list its neighbours, its neighbouring stones and its empty neighbours, each once. *)
Theorem C69_neighbours_of_a_point dbg n m g p : breach dbg n m g -> on n p ->
  (exists l, get_connected_points dbg g p = Ok l /\ NoDup l.*1 /\ forall q c, (q, c) ∈ l <-> on n q /\ adj p q /\ pos_of g q = c) /\
  (exists l, get_connected_stones dbg g p = Ok l /\ NoDup l.*1 /\ forall q c, (q, c) ∈ l <-> on n q /\ adj p q /\ pos_of g q = Some c) /\
  (exists l, get_liberties dbg g p = Ok l /\ NoDup l /\ (forall q, q ∈ l <-> on n q /\ adj p q /\ pos_of g q = None) /\
     has_liberties dbg g p = Ok (negb (length l =? 0))).
Proof. exact (claim_point_queries dbg n m g p). Qed.
Print Assumptions C69_neighbours_of_a_point.

Example C69_neighbours_of_a_point_case dbg : exists m g, breach dbg 9 m g /\ on 9 (1, 1) /\
  pos_of g (0, 1) = Some White /\ pos_of g (1, 0) = Some White /\ pos_of g (1, 2) = Some Black /\ pos_of g (2, 1) = None /\
  get_connected_groups_idx dbg g (index 9 (1, 1)) = Ok [1; 0] /\ group_no g (0, 1) = group_no g (1, 0).
Proof. exact (case_queries dbg). Qed.

(** C69: the groups next to a point are listed once each, with their numbers. *)
Theorem C69_groups_of_a_point dbg n m g p : breach dbg n m g -> on n p ->
  exists ks gs, get_connected_groups_idx dbg g (index n p) = Ok ks /\ get_connected_groups dbg g p = Ok gs /\ NoDup ks /\
    (forall k, k ∈ ks <-> exists q, on n q /\ adj p q /\ group_no g q = Some k) /\
    Forall2 (fun k grp => chains g !! k = Some (Some grp)) ks gs.
Proof. exact (claim_point_groups dbg n m g p). Qed.
Print Assumptions C69_groups_of_a_point.

Example C69_groups_of_a_point_case dbg : exists m g, breach dbg 9 m g /\ on 9 (1, 1) /\
  pos_of g (0, 1) = Some White /\ pos_of g (1, 0) = Some White /\ pos_of g (1, 2) = Some Black /\ pos_of g (2, 1) = None /\
  get_connected_groups_idx dbg g (index 9 (1, 1)) = Ok [1; 0] /\ group_no g (0, 1) = group_no g (1, 0).
Proof. exact (case_queries dbg). Qed.

(** C70: the calls of [next] give the stones of the group one after the other and then [None] for ever, without panic; the size hint is the size of the group all the time. *)
Theorem C70_iterator_calls dbg n m g k grp : breach dbg n m g -> chains g !! k = Some (Some grp) ->
  exists l, NoDup l /\ (forall i, i ∈ l <-> exists p, on n p /\ i = index n p /\ group_no g p = Some k) /\
    group_iter dbg grp (next_stone g) = Ok l /\
    forall i, exists it it', iter_after dbg (next_stone g) (iter_new grp) i = Ok it /\
      iter_next dbg (next_stone g) it = Ok (it', l !! i) /\
      iter_size_hint it = (length l, Some (length l)).
Proof. exact (claim_iterator dbg n m g k grp). Qed.
Print Assumptions C70_iterator_calls.

Example C70_iterator_calls_case dbg : exists m g k grp,
  breach dbg 9 m g /\ chains g !! k = Some (Some grp) /\ g_num_stones grp = 2 /\ group_no g (2, 2) = Some k /\ group_no g (2, 3) = Some k /\
  pos_of g (3, 3) = Some White.
Proof. exact (case_group dbg). Qed.

(** C70: after a call of [next] the size hint is not the number of stones that are left. *)
Theorem C70_exact_size_refuted dbg : exists m g k grp it1 it2 a b, breach dbg 9 m g /\ chains g !! k = Some (Some grp) /\
  iter_next dbg (next_stone g) (iter_new grp) = Ok (it1, Some a) /\ iter_next dbg (next_stone g) it1 = Ok (it2, Some b) /\
  iter_next dbg (next_stone g) it2 = Ok (it2, None) /\ iter_size_hint it1 = (2, Some 2) /\ iter_size_hint it2 = (2, Some 2).
Proof. exact (size_hint_wrong dbg). Qed.
Print Assumptions C70_exact_size_refuted.

(** C71: [check_point_by] returns the error of the first reason that applies under the given mask. *)
Theorem C71_check_point_exact dbg n b w g p f v : greach dbg n b w g -> on n p -> ~ no_slot_left g ->
  (check_point_by dbg g p f = Ok (error_of v) <-> first_reason (point_reasons n f (table_of g) p) v).
Proof. exact (claim_check_point dbg n b w g p f v). Qed.
Print Assumptions C71_check_point_exact.

Example C71_check_point_exact_case dbg : exists g b w, greach dbg 9 b w g /\ on 9 (1, 1) /\ position g (1, 1) = None /\ ~ no_slot_left g /\
  check_point_by dbg g (1, 1) KO = Ok (Some EKo) /\ check_point_by dbg g (1, 1) SUICIDE = Ok None /\
  check_ko dbg g ((1, 1), gm_turn g) = Ok true.
Proof. exact (case_masks dbg). Qed.

(** C71: [check_ko] is exact. *)
Theorem C71_check_ko_exact dbg n b w g p c : greach dbg n b w g -> on n p -> position g p = None ->
  exists v, check_ko dbg g (p, c) = Ok v /\ (v = true <-> ko_banned n (table_of g) p).
Proof. exact (claim_check_ko dbg n b w g p c). Qed.
Print Assumptions C71_check_ko_exact.

Example C71_check_ko_exact_case dbg : exists g b w, greach dbg 9 b w g /\ on 9 (1, 1) /\ position g (1, 1) = None /\ ~ no_slot_left g /\
  check_point_by dbg g (1, 1) KO = Ok (Some EKo) /\ check_point_by dbg g (1, 1) SUICIDE = Ok None /\
  check_ko dbg g ((1, 1), gm_turn g) = Ok true.
Proof. exact (case_masks dbg). Qed.

(** C71: [check_super_ko] is exact. *)
Theorem C71_check_super_ko_exact dbg n b w g p : greach dbg n b w g -> on n p -> position g p = None -> ~ no_slot_left g ->
  exists v, check_super_ko dbg g (p, gm_turn g) = Ok v /\ (v = true <-> superko_banned n (table_of g) p).
Proof. exact (claim_check_super_ko dbg n b w g p). Qed.
Print Assumptions C71_check_super_ko_exact.

Example C71_check_super_ko_exact_case dbg : exists g b w, greach dbg 2 b w g /\ on 2 (0, 0) /\ position g (0, 0) = None /\ ~ no_slot_left g /\
  check_super_ko dbg g ((0, 0), gm_turn g) = Ok true /\ check_ko dbg g ((0, 0), gm_turn g) = Ok false.
Proof. exact (case_superko_check dbg). Qed.

(** C71: [legals_by] lists in row-major order the points without a reason to refuse them under the given mask. *)
Theorem C71_legals_by_exact dbg n b w g f : greach dbg n b w g -> ~ no_slot_left g ->
  exists l, legals_by dbg g f = Ok l /\ StronglySorted row_major l /\
    forall p, p ∈ l <-> on n p /\ first_reason (point_reasons n f (table_of g) p) Accepted.
Proof. exact (claim_legals_by dbg n b w g f). Qed.
Print Assumptions C71_legals_by_exact.

Example C71_legals_by_exact_case dbg : exists g b w, greach dbg 9 b w g /\ on 9 (1, 1) /\ position g (1, 1) = None /\ ~ no_slot_left g /\
  check_point_by dbg g (1, 1) KO = Ok (Some EKo) /\ check_point_by dbg g (1, 1) SUICIDE = Ok None /\
  check_ko dbg g ((1, 1), gm_turn g) = Ok true.
Proof. exact (case_masks dbg). Qed.

(** C72: every sequence of guarded calls on a new game is answered, with the answers of the abstract game, and ends in the state of the abstract game. *)
Theorem C72_games_follow_the_rules dbg n s r ops : (1 <= n <= 19)%nat -> size_of s = (n, n) -> (forall o, o ∈ ops -> guarded n o) -> (N.of_nat (all_stones ops) <= 65535)%N ->
  exists g g' l t', game_new s r = Ok g /\ calls dbg g ops = Ok (g', l) /\ table_run n (flag_illegal r) start ops l t' /\ same_table n (table_of g') t'.
Proof. exact (game_guarded dbg n s r ops). Qed.
Print Assumptions C72_games_follow_the_rules.

Example C72_games_follow_the_rules_case dbg : exists g g' t', game_new (Custom 9 9) JAPANESE = Ok g /\ size_of (Custom 9 9) = (9, 9) /\
  (forall o, o ∈ ko_ops -> guarded 9 o) /\ (N.of_nat (all_stones ko_ops) <= 65535)%N /\
  greach dbg 9 0 0 g /\ same_table 9 (table_of g) start /\
  calls dbg g ko_ops = Ok (g', ko_answers) /\ table_run 9 (flag_illegal JAPANESE) start ko_ops ko_answers t' /\ same_table 9 (table_of g') t' /\
  t_pos t' (1, 1) = Some White /\ t_pos t' (1, 2) = None /\ t_outcome t' = Some (WinnerByResign White) /\ t_prisoners t' = (1, 1)%N.
Proof. exact (case_game dbg). Qed.

(** C72: every run of the abstract game from the start is a run of the library, with the same answers. *)
Theorem C72_rules_are_followed dbg n s r g ops l t' : (1 <= n)%nat -> size_of s = (n, n) -> game_new s r = Ok g ->
  table_run n (flag_illegal r) start ops l t' -> (N.of_nat (all_stones ops) <= 65535)%N ->
  exists g', calls dbg g ops = Ok (g', l) /\ same_table n (table_of g') t'.
Proof. exact (game_follows dbg n s r g ops l t'). Qed.
Print Assumptions C72_rules_are_followed.

Example C72_rules_are_followed_case dbg : exists g g' t', game_new (Custom 9 9) JAPANESE = Ok g /\ size_of (Custom 9 9) = (9, 9) /\
  (forall o, o ∈ ko_ops -> guarded 9 o) /\ (N.of_nat (all_stones ko_ops) <= 65535)%N /\
  greach dbg 9 0 0 g /\ same_table 9 (table_of g) start /\
  calls dbg g ko_ops = Ok (g', ko_answers) /\ table_run 9 (flag_illegal JAPANESE) start ko_ops ko_answers t' /\ same_table 9 (table_of g') t' /\
  t_pos t' (1, 1) = Some White /\ t_pos t' (1, 2) = None /\ t_outcome t' = Some (WinnerByResign White) /\ t_prisoners t' = (1, 1)%N.
Proof. exact (case_game dbg). Qed.

(** C72: the same from any game, for calls that are answered in the abstract game. *)
Theorem C72_any_reachable_game_goes_on dbg n f ops b w g t l t' : greach dbg n b w g -> flag_illegal (gm_rule g) = f -> same_table n (table_of g) t ->
  table_run n f t ops l t' -> (N.of_nat (b + w + all_stones ops) <= 65535)%N ->
  exists g', calls dbg g ops = Ok (g', l) /\ same_table n (table_of g') t'.
Proof. exact (calls_follow dbg n f ops b w g t l t'). Qed.
Print Assumptions C72_any_reachable_game_goes_on.

Example C72_any_reachable_game_goes_on_case dbg : exists g g' t', game_new (Custom 9 9) JAPANESE = Ok g /\ size_of (Custom 9 9) = (9, 9) /\
  (forall o, o ∈ ko_ops -> guarded 9 o) /\ (N.of_nat (all_stones ko_ops) <= 65535)%N /\
  greach dbg 9 0 0 g /\ same_table 9 (table_of g) start /\
  calls dbg g ko_ops = Ok (g', ko_answers) /\ table_run 9 (flag_illegal JAPANESE) start ko_ops ko_answers t' /\ same_table 9 (table_of g') t' /\
  t_pos t' (1, 1) = Some White /\ t_pos t' (1, 2) = None /\ t_outcome t' = Some (WinnerByResign White) /\ t_prisoners t' = (1, 1)%N.
Proof. exact (case_game dbg). Qed.

(** C72: guarded calls are answered from any game, as by the abstract game. *)
Theorem C72_guarded_calls_are_answered dbg n ops b w g : greach dbg n b w g -> (forall o, o ∈ ops -> guarded n o) -> (N.of_nat (b + w + all_stones ops) <= 65535)%N ->
  exists g' l, calls dbg g ops = Ok (g', l) /\ table_run n (flag_illegal (gm_rule g)) (table_of g) ops l (table_of g').
Proof. exact (calls_sim dbg n ops b w g). Qed.
Print Assumptions C72_guarded_calls_are_answered.

Example C72_guarded_calls_are_answered_case dbg : exists g g' t', game_new (Custom 9 9) JAPANESE = Ok g /\ size_of (Custom 9 9) = (9, 9) /\
  (forall o, o ∈ ko_ops -> guarded 9 o) /\ (N.of_nat (all_stones ko_ops) <= 65535)%N /\
  greach dbg 9 0 0 g /\ same_table 9 (table_of g) start /\
  calls dbg g ko_ops = Ok (g', ko_answers) /\ table_run 9 (flag_illegal JAPANESE) start ko_ops ko_answers t' /\ same_table 9 (table_of g') t' /\
  t_pos t' (1, 1) = Some White /\ t_pos t' (1, 2) = None /\ t_outcome t' = Some (WinnerByResign White) /\ t_prisoners t' = (1, 1)%N.
Proof. exact (case_game dbg). Qed.

(** C72: the answers and the final state of the abstract game depend only on the calls. *)
Theorem C72_abstract_game_is_deterministic n f ops t u l l' t' u' : (n <= 19)%nat -> same_table n t u ->
  table_run n f t ops l t' -> table_run n f u ops l' u' -> l = l' /\ same_table n t' u'.
Proof. exact (fun H => run_det n H f ops t u l l' t' u'). Qed.
Print Assumptions C72_abstract_game_is_deterministic.

Example C72_abstract_game_is_deterministic_case dbg : exists g g' t', game_new (Custom 9 9) JAPANESE = Ok g /\ size_of (Custom 9 9) = (9, 9) /\
  (forall o, o ∈ ko_ops -> guarded 9 o) /\ (N.of_nat (all_stones ko_ops) <= 65535)%N /\
  greach dbg 9 0 0 g /\ same_table 9 (table_of g) start /\
  calls dbg g ko_ops = Ok (g', ko_answers) /\ table_run 9 (flag_illegal JAPANESE) start ko_ops ko_answers t' /\ same_table 9 (table_of g') t' /\
  t_pos t' (1, 1) = Some White /\ t_pos t' (1, 2) = None /\ t_outcome t' = Some (WinnerByResign White) /\ t_prisoners t' = (1, 1)%N.
Proof. exact (case_game dbg). Qed.

(** C73: a new group has one stone and no liberty. *)
Theorem C73_new_group c i : bits_ok (g_liberties (group_new c i)) /\ g_color (group_new c i) = c /\ g_num_stones (group_new c i) = 1%nat /\
  g_origin (group_new c i) = i /\ g_last (group_new c i) = i /\
  is_dead (group_new c i) = true /\ forall j, (j < 368)%nat -> contains_liberty (group_new c i) j = Ok false.
Proof. exact (new_group c i). Qed.
Print Assumptions C73_new_group.

(** C73: [add_liberties] adds the given liberties and changes nothing else; in a debug build it panics exactly if one of them is there already or given twice. *)
Theorem C73_add_liberties dbg g l : bits_ok (g_liberties g) -> (forall j, j ∈ l -> (j < 368)%nat) ->
  ((dbg = true -> fresh_in l g) ->
     exists g', add_liberties dbg g l = Ok g' /\ bits_ok (g_liberties g') /\ same_frame g g' /\
       forall j, (j < 368)%nat -> contains_liberty g' j = Ok true <-> j ∈ l \/ contains_liberty g j = Ok true) /\
  (dbg = true -> ~ fresh_in l g -> add_liberties dbg g l = Panic).
Proof. exact (add_liberties_api dbg g l). Qed.
Print Assumptions C73_add_liberties.

Example C73_add_liberties_case : bits_ok (g_liberties (group_new Black 40)) /\ (forall j, j ∈ [31; 39; 41; 49] -> j < 368) /\
  fresh_in [31; 39; 41; 49] (group_new Black 40) /\ ~ fresh_in [31; 31] (group_new Black 40) /\
  exists g, add_liberties true (group_new Black 40) [31; 39; 41; 49] = Ok g /\ number_of_liberties g = 4 /\
    contains_liberty g 39 = Ok true /\ contains_liberty g 40 = Ok false.
Proof. exact case_add_liberties. Qed.

(** C73: [union_liberties] adds the liberties of the other group and changes nothing else. *)
Theorem C73_union_liberties g h : bits_ok (g_liberties g) -> bits_ok (g_liberties h) ->
  bits_ok (g_liberties (union_liberties g (g_liberties h))) /\ same_frame g (union_liberties g (g_liberties h)) /\
  forall j, (j < 368)%nat ->
    contains_liberty (union_liberties g (g_liberties h)) j = Ok true <-> contains_liberty g j = Ok true \/ contains_liberty h j = Ok true.
Proof. exact (union_liberties_api g h). Qed.
Print Assumptions C73_union_liberties.

Example C73_union_liberties_case : bits_ok (g_liberties (group_new Black 40)) /\ (forall j, j ∈ [31; 39; 41; 49] -> j < 368) /\
  fresh_in [31; 39; 41; 49] (group_new Black 40) /\ ~ fresh_in [31; 31] (group_new Black 40) /\
  exists g, add_liberties true (group_new Black 40) [31; 39; 41; 49] = Ok g /\ number_of_liberties g = 4 /\
    contains_liberty g 39 = Ok true /\ contains_liberty g 40 = Ok false.
Proof. exact case_add_liberties. Qed.

(** C73: [remove_liberty] takes one liberty away and changes nothing else; in a debug build it panics if it was not there. *)
Theorem C73_remove_liberty dbg g j : bits_ok (g_liberties g) -> (j < 368)%nat ->
  (dbg = false \/ contains_liberty g j = Ok true ->
     exists g', remove_liberty dbg g j = Ok g' /\ bits_ok (g_liberties g') /\ same_frame g g' /\
       forall i, (i < 368)%nat -> contains_liberty g' i = Ok true <-> i <> j /\ contains_liberty g i = Ok true) /\
  (dbg = true -> contains_liberty g j = Ok false -> remove_liberty dbg g j = Panic).
Proof. exact (remove_liberty_api dbg g j). Qed.
Print Assumptions C73_remove_liberty.

Example C73_remove_liberty_case : exists g, bits_ok (g_liberties g) /\ contains_liberty g 39 = Ok true /\ contains_liberty g 40 = Ok false /\
  group_liberties g = Ok [31; 39; 41; 49] /\ forall j, j ∈ [3; 39] -> j < 368.
Proof. exact case_remove_liberty. Qed.

(** C73: [union_liberties_slice] adds the given liberties, present or not, and changes nothing else. *)
Theorem C73_union_liberties_slice g l : bits_ok (g_liberties g) -> (forall j, j ∈ l -> (j < 368)%nat) ->
  exists g', union_liberties_slice g l = Ok g' /\ bits_ok (g_liberties g') /\ same_frame g g' /\
    forall j, (j < 368)%nat -> contains_liberty g' j = Ok true <-> j ∈ l \/ contains_liberty g j = Ok true.
Proof. exact (union_slice_api g l). Qed.
Print Assumptions C73_union_liberties_slice.

Example C73_union_liberties_slice_case : exists g, bits_ok (g_liberties g) /\ contains_liberty g 39 = Ok true /\ contains_liberty g 40 = Ok false /\
  group_liberties g = Ok [31; 39; 41; 49] /\ forall j, j ∈ [3; 39] -> j < 368.
Proof. exact case_remove_liberty. Qed.

(** C73: [liberties], [number_of_liberties], [is_dead], [is_atari] and [contains_liberty] agree. *)
Theorem C73_queries_agree g : bits_ok (g_liberties g) ->
  exists l, group_liberties g = Ok l /\ StronglySorted lt l /\ (forall j, j ∈ l <-> (j < 368)%nat /\ contains_liberty g j = Ok true) /\
    number_of_liberties g = length l /\ is_dead g = (length l =? 0)%nat /\ is_atari g = (length l =? 1)%nat.
Proof. exact (group_questions g). Qed.
Print Assumptions C73_queries_agree.

Example C73_queries_agree_case : exists g, bits_ok (g_liberties g) /\ contains_liberty g 39 = Ok true /\ contains_liberty g 40 = Ok false /\
  group_liberties g = Ok [31; 39; 41; 49] /\ forall j, j ∈ [3; 39] -> j < 368.
Proof. exact case_remove_liberty. Qed.

(** C73: [iter_with_index] lists the live groups with their numbers in increasing order; the group of every stone is among them. *)
Theorem C73_groups_with_numbers dbg n m g : breach dbg n m g ->
  StronglySorted lt (iter_with_index (chains g)).*1 /\ (forall k grp, (k, grp) ∈ iter_with_index (chains g) <-> chains g !! k = Some (Some grp)) /\
  forall p k, on n p -> group_no g p = Some k -> exists grp, (k, grp) ∈ iter_with_index (chains g) /\ pos_of g p = Some (g_color grp).
Proof. exact (claim_iter_with_index dbg n m g). Qed.
Print Assumptions C73_groups_with_numbers.

Example C73_groups_with_numbers_case dbg : exists m g k grp,
  breach dbg 9 m g /\ chains g !! k = Some (Some grp) /\ g_num_stones grp = 2 /\ group_no g (2, 2) = Some k /\ group_no g (2, 3) = Some k /\
  pos_of g (3, 3) = Some White.
Proof. exact (case_group dbg). Qed.

(** C74: in a game ended by two passes the reward of a colour is 1 if it has more points, 0 if it has fewer, and its computation panics if the points are equal. *)
Theorem C74_reward_exact order dbg n b0 w0 g k2 c :
  greach dbg n b0 w0 g -> (forall l, order l ≡ₚ l) -> is_f32 (komi g) -> halves (komi g) k2 -> (Z.abs k2 <= 200000)%Z ->
  (fst (gm_prisoners g) < 1000000)%N -> (snd (gm_prisoners g) < 1000000)%N -> gm_outcome g = None -> gm_passes g = 2 ->
  exists tb tw, card (owned n (position g) Black) tb /\ card (owned n (position g) White) tw /\
    let B := black2 (flag_score (gm_rule g)) (N.of_nat tb) (N.of_nat (count n (position g) Black)) (fst (gm_prisoners g)) in
    let Wh := white2 (flag_score (gm_rule g)) (N.of_nat tw) (N.of_nat (count n (position g) White)) (snd (gm_prisoners g)) k2 in
    let mine := match c with Black => B | White => Wh end in
    let theirs := match c with Black => Wh | White => B end in
    (evaluate_leaf order dbg g c = Ok 1 <-> (mine > theirs)%Z) /\
    (evaluate_leaf order dbg g c = Ok 0 <-> (mine < theirs)%Z) /\
    (evaluate_leaf order dbg g c = Panic <-> mine = theirs).
Proof. exact (leaf_reward order dbg n b0 w0 g k2 c). Qed.
Print Assumptions C74_reward_exact.

Example C74_reward_exact_case dbg : exists g b w,
  greach dbg 3 b w g /\ gm_passes g = 2 /\ gm_outcome g = None /\ is_f32 (komi g) /\ halves (komi g) 13 /\ (Z.abs 13 <= 200000)%Z /\
  (fst (gm_prisoners g) < 1000000)%N /\ (snd (gm_prisoners g) < 1000000)%N /\
  outcome (fun l => l) dbg g = Ok (Some (WinnerByScore Black (f32_make 3 (-1)))).
Proof. exact (case_paused dbg). Qed.

(** C74: with any finite komi a reward of 1 means that the colour has more points in exact arithmetic, a reward of 0 that it has fewer, and a panic that the exact scores differ by less than a sixteenth of a point. *)
Theorem C74_reward_any_komi order dbg n b0 w0 g k c :
  greach dbg n b0 w0 g -> (forall l, order l ≡ₚ l) ->
  is_f32 (komi g) -> (if N.testbit (flag_score (gm_rule g)) 1 then units (komi g) else Some 0%Z) = Some k ->
  (fst (gm_prisoners g) < 1000000)%N -> (snd (gm_prisoners g) < 1000000)%N ->
  gm_outcome g = None -> gm_passes g = 2 ->
  exists tb tw, card (owned n (position g) Black) tb /\ card (owned n (position g) White) tw /\
    let B := points_in_units (side_points (flag_score (gm_rule g)) (N.of_nat tb) (N.of_nat (count n (position g) Black)) (fst (gm_prisoners g))) in
    let Wh := (points_in_units (side_points (flag_score (gm_rule g)) (N.of_nat tw) (N.of_nat (count n (position g) White)) (snd (gm_prisoners g))) + k)%Z in
    let mine := match c with Black => B | White => Wh end in
    let theirs := match c with Black => Wh | White => B end in
    (evaluate_leaf order dbg g c = Ok 1 /\ (mine > theirs)%Z) \/
    (evaluate_leaf order dbg g c = Ok 0 /\ (mine < theirs)%Z) \/
    (evaluate_leaf order dbg g c = Panic /\ (Z.abs (mine - theirs) < 2 ^ 145)%Z).
Proof. exact (leaf_reward_any order dbg n b0 w0 g k c). Qed.
Print Assumptions C74_reward_any_komi.

Example C74_reward_any_komi_case dbg : exists g b w,
  greach dbg 3 b w g /\ gm_passes g = 2 /\ gm_outcome g = None /\ is_f32 (komi g) /\
  N.testbit (flag_score (gm_rule g)) 1 = true /\
  (if N.testbit (flag_score (gm_rule g)) 1 then units (komi g) else Some 0%Z) = Some (13212058 * 2 ^ 128)%Z /\
  (fst (gm_prisoners g) < 1000000)%N /\ (snd (gm_prisoners g) < 1000000)%N /\
  outcome (fun l => l) dbg g = Ok (Some (WinnerByScore Black (f32_make 3565158 (-21)))).
Proof. exact (case_odd_komi dbg). Qed.

(** C74: the reward of a running game cannot be computed; after a resignation the winner gets 1 and the loser 0. *)
Theorem C74_reward_otherwise order dbg g :
  (is_over g = false -> forall c, evaluate_leaf order dbg g c = Panic) /\
  (forall c, exists g', play dbg g (MResign c) = Ok g' /\
     evaluate_leaf order dbg g' c = Ok 1 /\ evaluate_leaf order dbg g' (opp c) = Ok 0).
Proof. exact (leaf_reward_other order dbg g). Qed.
Print Assumptions C74_reward_otherwise.

(** C82: for coordinates below 255 and every board size, [valid_coords] lists the adjacent points of the board, once each. *)
Theorem C82_neighbours dbg h w p : h < 256 -> w < 256 -> fst p < 255 -> snd p < 255 ->
  exists l, valid_coords dbg p (h, w) = Ok l /\ NoDup l /\
    forall q, q ∈ l <-> (fst q < h /\ snd q < w) /\ adj p q.
Proof. exact (neighbours_rect dbg h w p). Qed.
Print Assumptions C82_neighbours.

Example C82_neighbours_case : 9 < 256 /\ 13 < 256 /\ fst (8, 0) < 255 /\ snd (8, 0) < 255 /\
  valid_coords true (8, 0) (9, 13) = Ok [(7, 0); (8, 1)] /\ corner_points true (3, 4) = Ok [(4, 5); (2, 3); (4, 3); (2, 5)].
Proof. exact case_coordinates. Qed.

(** C82: for coordinates below 255, [corner_points] gives four points; those on the board are the diagonal neighbours. *)
Theorem C82_corners dbg h w p : h < 256 -> w < 256 -> fst p < 255 -> snd p < 255 ->
  exists l, corner_points dbg p = Ok l /\ length l = 4 /\ NoDup l /\
    forall q, fst q < h -> snd q < w -> q ∈ l <-> diag p q.
Proof. exact (corners_rect dbg h w p). Qed.
Print Assumptions C82_corners.

Example C82_corners_case : 9 < 256 /\ 13 < 256 /\ fst (8, 0) < 255 /\ snd (8, 0) < 255 /\
  valid_coords true (8, 0) (9, 13) = Ok [(7, 0); (8, 1)] /\ corner_points true (3, 4) = Ok [(4, 5); (2, 3); (4, 3); (2, 5)].
Proof. exact case_coordinates. Qed.

(** C82: for the coordinate 255 both panic in debug builds. *)
Theorem C82_last_coordinate p s : fst p < 256 -> snd p < 256 -> fst p = 255 \/ snd p = 255 ->
  valid_coords true p s = Panic /\ corner_points true p = Panic.
Proof. exact (last_coordinate p s). Qed.
Print Assumptions C82_last_coordinate.

Example C82_last_coordinate_case : fst (4, 255) < 256 /\ snd (4, 255) < 256 /\ (fst (4, 255) = 255 \/ snd (4, 255) = 255).
Proof. exact case_last_coordinate. Qed.

(** C82: for the coordinate 255 release builds take points of the opposite edge for neighbours. *)
Theorem C82_last_coordinate_refuted : exists h w p q l, h < 256 /\ w < 256 /\ fst p < 256 /\ snd p < 256 /\
  valid_coords false p (h, w) = Ok l /\ q ∈ l /\ ~ adj p q.
Proof. exact wraps_around. Qed.
Print Assumptions C82_last_coordinate_refuted.

(** C83: a point and its index name the same point: they are converted into each other, and the functions that take either give the same answers. *)
Theorem C83_indices dbg n m g p : breach dbg n m g -> on n p ->
  into_coord_idx (gsize g) (fst p * n + snd p) = Ok p /\ into_idx_coord (gsize g) p = fst p * n + snd p /\
  get_color_idx g (fst p * n + snd p) = Ok (pos_of g p) /\ get_color g p = Ok (pos_of g p) /\
  exists l, get_connected_stones_idx dbg g (fst p * n + snd p) = Ok l /\ get_connected_stones dbg g p = Ok l /\ NoDup l.*1 /\
    forall q c, (q, c) ∈ l <-> on n q /\ adj p q /\ pos_of g q = Some c.
Proof. exact (index_variants dbg n m g p). Qed.
Print Assumptions C83_indices.

Example C83_indices_case dbg : exists m g, breach dbg 9 m g /\ on 9 (1, 1) /\
  pos_of g (0, 1) = Some White /\ pos_of g (1, 0) = Some White /\ pos_of g (1, 2) = Some Black /\ pos_of g (2, 1) = None /\
  get_connected_groups_idx dbg g (index 9 (1, 1)) = Ok [1; 0] /\ group_no g (0, 1) = group_no g (1, 0).
Proof. exact (case_queries dbg). Qed.

(** C83: a colour or a stone can be made exactly from an occupied point, and keeps its place and colour. *)
Theorem C83_conversions : (forall x, color_of_maybe x = Panic <-> x = None) /\ (forall x c, color_of_maybe x = Ok c <-> x = Some c) /\
  (forall p s, stone_of_point p = inl s <-> p = (fst s, Some (snd s))) /\ (forall p e, stone_of_point p = inr e -> snd p = None) /\
  (forall c d, color_name c = color_name d -> c = d) /\ (forall p, exists x y, move_of_coord p = MPlay x y /\ p = (x, y)).
Proof. exact conversions. Qed.
Print Assumptions C83_conversions.

(** C84: a new game is empty in every respect and Black is to move; every point is legal, except on the board with one point where the rules forbid suicide or filling eyes. *)
Theorem C84_new_game order dbg n s r g : 1 <= n -> size_of s = (n, n) -> game_new s r = Ok g ->
  gsize (gm_goban g) = (n, n) /\ (forall p, on n p -> position g p = None) /\ number_of_stones (gm_goban g) = (0, 0) /\
  zobrist_hash (gm_goban g) = 0%N /\ gm_turn g = Black /\ gm_prisoners g = (0%N, 0%N) /\ gm_history g = [] /\ gm_rule g = r /\
  is_over g = false /\ outcome order dbg g = Ok None /\
  exists l, legals dbg g = Ok l /\ StronglySorted row_major l /\
    forall p, p ∈ l <-> on n p /\ ~ (n = 1 /\ (forbids_suicide r = true \/ forbids_fill_eye r = true)).
Proof. exact (fresh_game order dbg n s r g). Qed.
Print Assumptions C84_new_game.

Example C84_new_game_case dbg : exists g1 g2 g3,
  game_new (Custom 1 257) CHINESE = Ok g1 /\ legals dbg g1 = Ok [] /\
  game_new (Custom 1 1) FREE = Ok g2 /\ legals dbg g2 = Ok [(0, 0)] /\
  game_new (Custom 2 2) JAPANESE = Ok g3 /\ legals dbg g3 = Ok [(0, 0); (0, 1); (1, 0); (1, 1)].
Proof. exact (case_fresh dbg). Qed.

(** C84: the default game and the game of the default builder are the new 19x19 game under Chinese rules; the default board is its board. *)
Theorem C84_defaults dbg : exists g gb, game_default = Ok g /\ goban_default = Ok gb /\ build dbg game_builder = (game_builder, Ok g) /\
  game_new Nineteen CHINESE = Ok g /\ gm_goban g = gb /\ gsize gb = (19, 19) /\ forall p, on 19 p -> pos_of gb p = None.
Proof. exact (default_games dbg). Qed.
Print Assumptions C84_defaults.

(** C85: a built game is the state of the abstract game after the moves of the builder, played from the table that the builder describes. *)
Theorem C85_built_games dbg n bl t l t' : 1 <= n <= 19 -> b_size bl = (n, n) ->
  NoDup (setup_stones bl).*1 -> (forall s, s ∈ setup_stones bl -> on n (fst s)) ->
  opening n bl t -> table_run n (flag_illegal (b_rule bl)) t (List.map OPlay (b_moves bl)) l t' ->
  (N.of_nat (length (setup_stones bl) + all_stones (List.map OPlay (b_moves bl))) <= 65535)%N ->
  exists g, build dbg bl = (builder_default, Ok g) /\ same_table n (table_of g) t' /\
    komi g = default (r_komi (b_rule bl)) (b_komi bl).
Proof. exact (build_follows dbg n bl t l t'). Qed.
Print Assumptions C85_built_games.

Example C85_built_games_case : exists t l t', 1 <= 9 <= 19 /\ b_size capture_builder = (9, 9) /\
  NoDup (setup_stones capture_builder).*1 /\ (forall s, s ∈ setup_stones capture_builder -> on 9 (fst s)) /\
  opening 9 capture_builder t /\ table_run 9 (flag_illegal (b_rule capture_builder)) t (List.map OPlay (b_moves capture_builder)) l t' /\
  (N.of_nat (length (setup_stones capture_builder) + all_stones (List.map OPlay (b_moves capture_builder))) <= 65535)%N /\ after_capture t'.
Proof. exact case_built. Qed.

(** C85: an imported game is the state of the abstract game after the moves of the record, played from the table that its root describes. *)
Theorem C85_imported_games dbg n root rest t l t' : 1 <= n <= 19 -> supported dbg root rest ->
  (fst (record_size root) mod 256 = N.of_nat n /\ snd (record_size root) mod 256 = N.of_nat n)%N ->
  NoDup (record_stones root).*1 -> (forall s, s ∈ record_stones root -> on n (fst s)) ->
  record_opening n root t -> table_run n (flag_illegal (record_rule root)) t (List.map OPlay (record_moves rest)) l t' ->
  (N.of_nat (length (record_stones root) + all_stones (List.map OPlay (record_moves rest))) <= 65535)%N ->
  exists g, from_sgf_nodes dbg (root :: rest) = Ok g /\ same_table n (table_of g) t' /\
    komi g = default (r_komi (record_rule root)) (last_said said_komi root).
Proof. exact (import_follows dbg n root rest t l t'). Qed.
Print Assumptions C85_imported_games.

Example C85_imported_games_case dbg : exists t l t', supported dbg capture_root capture_rest /\
  (fst (record_size capture_root) mod 256 = N.of_nat 9 /\ snd (record_size capture_root) mod 256 = N.of_nat 9)%N /\
  NoDup (record_stones capture_root).*1 /\ (forall s, s ∈ record_stones capture_root -> on 9 (fst s)) /\
  record_opening 9 capture_root t /\
  table_run 9 (flag_illegal (record_rule capture_root)) t (List.map OPlay (record_moves capture_rest)) l t' /\
  (N.of_nat (length (record_stones capture_root) + all_stones (List.map OPlay (record_moves capture_rest))) <= 65535)%N /\ after_capture t'.
Proof. exact (case_import dbg). Qed.

(** C85: moves that the abstract game accepts can also be played without asking, with the same states. *)
Theorem C85_accepted_moves n f ms t l t' : table_run n f t (List.map OTry ms) l t' -> (forall a, a ∈ l -> a = Some Accepted) ->
  table_run n f t (List.map OPlay ms) (List.map (fun _ => None) ms) t'.
Proof. exact (accepted_run n f ms t l t'). Qed.
Print Assumptions C85_accepted_moves.

Example C85_accepted_moves_case : exists t l t', table_run 9 (flag_illegal JAPANESE) t (List.map OTry (record_moves capture_rest)) l t' /\
  (forall a, a ∈ l -> a = Some Accepted) /\ after_capture t'.
Proof. exact case_accepted. Qed.

(** C86: after any calls of its setters the builder holds, for each setting, the last value given, else the default; set-up stones accumulate. *)
Theorem C86_settings l : said_everything (fold_left set_to l game_builder) l.
Proof. exact (setters l). Qed.
Print Assumptions C86_settings.
