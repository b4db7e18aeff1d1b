(** Claims and concrete cases on queries, iterators, checks and whole games. *)
From stdpp Require Import relations sorting.
From Verif Require Import Spec Observe Ops ScoreSpec PlayoutSpec VerdictSpec TableSpec GroupMore.
From Verif Require Import MonadFacts BitsetFacts Bridge GameFacts RulesFacts BoardFacts ApiFacts LegalsFacts ScoreFacts PlayoutFacts VerdictFacts TableFacts QueryFacts ClaimFacts CaseFacts PlayClaims.
From Coq Require Import Lia.

Local Notation length := Datatypes.length.
Open Scope nat_scope.

(** ** Queries *)

Lemma claim_point_queries dbg n m g p : breach dbg n m g -> on n p ->
  (exists l, get_connected_points dbg g p = Ok l /\ NoDup l.*1 /\ forall q c, (q, c) ∈ l <-> on n q /\ adj p q /\ pos_of g q = c) /\
  (exists l, get_connected_stones dbg g p = Ok l /\ NoDup l.*1 /\ forall q c, (q, c) ∈ l <-> on n q /\ adj p q /\ pos_of g q = Some c) /\
  (exists l, get_liberties dbg g p = Ok l /\ NoDup l /\ (forall q, q ∈ l <-> on n q /\ adj p q /\ pos_of g q = None) /\
     has_liberties dbg g p = Ok (negb (length l =? 0))).
Proof.
  intros B Hp. pose proof (breach_wf dbg n m g B) as W. split; [exact (connected_points_api dbg n g p W Hp)|].
  split; [exact (connected_stones_api dbg n g p W Hp)|exact (liberties_of_point dbg n g p W Hp)].
Qed.

Lemma claim_point_groups dbg n m g p : breach dbg n m g -> on n p ->
  exists ks gs, get_connected_groups_idx dbg g (index n p) = Ok ks /\ get_connected_groups dbg g p = Ok gs /\ NoDup ks /\
    (forall k, k ∈ ks <-> exists q, on n q /\ adj p q /\ group_no g q = Some k) /\
    Forall2 (fun k grp => chains g !! k = Some (Some grp)) ks gs.
Proof. intros B. exact (groups_of_point dbg n g p (breach_wf dbg n m g B)). Qed.

(** a point with a neighbour of each kind; a group met twice *)
Lemma case_queries dbg : exists m g, breach dbg 9 m g /\ on 9 (1, 1) /\
  pos_of g (0, 1) = Some White /\ pos_of g (1, 0) = Some White /\ pos_of g (1, 2) = Some Black /\ pos_of g (2, 1) = None /\
  get_connected_groups_idx dbg g (index 9 (1, 1)) = Ok [1; 0] /\ group_no g (0, 1) = group_no g (1, 0).
Proof.
  destruct (sampleb dbg 9 JAPANESE [MPlay 1 2; MPlay 0 1; MPlay 5 5; MPlay 0 0; MPlay 7 7; MPlay 1 0]
    (fun g => has g (0, 1) (Some White) && has g (1, 0) (Some White) && has g (1, 2) (Some Black) && has g (2, 1) None &&
       bool_decide (match get_connected_groups_idx dbg (gm_goban g) (index 9 (1, 1)) with Ok l => Some l | _ => None end = Some [1; 0]) &&
       bool_decide (group_no (gm_goban g) (0, 1) = group_no (gm_goban g) (1, 0))) ltac:(lia)) as (g & b & w & HG & _ & F); [destruct dbg; vm_compute; reflexivity|].
  bools F. unfold has in *. repeat match goal with H : bool_decide _ = true |- _ => apply bool_decide_eq_true in H end.
  destruct (get_connected_groups_idx dbg (gm_goban g) (index 9 (1, 1))) as [l| |] eqn:El; try discriminate.
  exists (b + w), (gm_goban g). split; [apply br_game; exact HG|]. rewrite El. split; [on_|]. repeat (split; [assumption || congruence|]). assumption.
Qed.

(** ** The iterator *)

Lemma claim_iterator dbg n m g k grp : breach dbg n m g -> chains g !! k = Some (Some grp) ->
  exists l, NoDup l /\ (forall i, i ∈ l <-> exists p, on n p /\ i = index n p /\ group_no g p = Some k) /\
    group_iter dbg grp (next_stone g) = Ok l /\
    forall i, exists it it', iter_after dbg (next_stone g) (iter_new grp) i = Ok it /\
      iter_next dbg (next_stone g) it = Ok (it', l !! i) /\
      iter_size_hint it = (length l, Some (length l)).
Proof. intros B. exact (group_iterator dbg n g k grp (breach_wf dbg n m g B)). Qed.

Lemma size_hint_wrong dbg : exists m g k grp it1 it2 a b, breach dbg 9 m g /\ chains g !! k = Some (Some grp) /\
  iter_next dbg (next_stone g) (iter_new grp) = Ok (it1, Some a) /\ iter_next dbg (next_stone g) it1 = Ok (it2, Some b) /\
  iter_next dbg (next_stone g) it2 = Ok (it2, None) /\ iter_size_hint it1 = (2, Some 2) /\ iter_size_hint it2 = (2, Some 2).
Proof.
  destruct (sampleb dbg 9 JAPANESE order_a (fun g =>
    match chains (gm_goban g) !! 0 with
    | Some (Some grp) =>
        match iter_next dbg (next_stone (gm_goban g)) (iter_new grp) with
        | Ok (it1, Some a) =>
            match iter_next dbg (next_stone (gm_goban g)) it1 with
            | Ok (it2, Some b) => bool_decide (it_next it2 = None) && bool_decide (it_num_stones it1 = 2) && bool_decide (it_num_stones it2 = 2)
            | _ => false end
        | _ => false end
    | _ => false end) ltac:(lia)) as (g & b & w & HG & _ & F); [destruct dbg; vm_compute; reflexivity|].
  destruct (chains (gm_goban g) !! 0) as [[grp|]|] eqn:Eg; try discriminate.
  destruct (iter_next dbg (next_stone (gm_goban g)) (iter_new grp)) as [[it1 [a|]]| |] eqn:E1; try discriminate.
  destruct (iter_next dbg (next_stone (gm_goban g)) it1) as [[it2 [c|]]| |] eqn:E2; try discriminate.
  bools F. apply bool_decide_eq_true in F, F1, F0. exists (b + w), (gm_goban g), 0, grp, it1, it2, a, c.
  split; [apply br_game; exact HG|]. split; [exact Eg|]. split; [exact E1|]. split; [exact E2|]. split.
  - unfold iter_next. destruct it2 as [o nx k]. cbn in *. subst nx. cbn. rewrite andb_false_r. reflexivity.
  - unfold iter_size_hint. rewrite F1, F0. auto.
Qed.

(** ** Groups *)

Lemma claim_iter_with_index dbg n m g : breach dbg n m g ->
  StronglySorted lt (iter_with_index (chains g)).*1 /\ (forall k grp, (k, grp) ∈ iter_with_index (chains g) <-> chains g !! k = Some (Some grp)) /\
  forall p k, on n p -> group_no g p = Some k -> exists grp, (k, grp) ∈ iter_with_index (chains g) /\ pos_of g p = Some (g_color grp).
Proof.
  intros B. destruct (iter_with_index_api (chains g)) as [S H]. split; [exact S|]. split; [exact H|]. intros p k Hp E.
  pose proof (breach_wf dbg n m g B) as W. assert (Hs : pos_of g p <> None) by (apply (group_no_some n g p W Hp); eauto).
  destruct (stone_group n g p W Hp Hs) as (k' & grp & E1 & E2 & E3). rewrite (group_no_cell n g p W) in E. rewrite E in E1. injection E1 as <-.
  exists grp. split; [apply H, live_chains, E2|exact E3].
Qed.

Lemma case_add_liberties : bits_ok (g_liberties (group_new Black 40)) /\ (forall j, j ∈ [31; 39; 41; 49] -> j < 368) /\
  fresh_in [31; 39; 41; 49] (group_new Black 40) /\ ~ fresh_in [31; 31] (group_new Black 40) /\
  exists g, add_liberties true (group_new Black 40) [31; 39; 41; 49] = Ok g /\ number_of_liberties g = 4 /\
    contains_liberty g 39 = Ok true /\ contains_liberty g 40 = Ok false.
Proof.
  split; [apply bits_ok_empty|]. split; [intros j Hj; rewrite !elem_of_cons, elem_of_nil in Hj; lia|]. split; [|split].
  - split; [apply (bool_decide_eq_true_1 (NoDup [31; 39; 41; 49])); vm_compute; reflexivity|]. intros j Hj. apply new_group. rewrite !elem_of_cons, elem_of_nil in Hj. lia.
  - intros [Nd _]. apply NoDup_cons in Nd as [Nd _]. apply Nd. left.
  - destruct (add_liberties true (group_new Black 40) [31; 39; 41; 49]) as [g| |] eqn:E; [|vm_compute in E; discriminate..]. exists g. split; [reflexivity|].
    vm_compute in E. injection E as <-. vm_compute. auto.
Qed.

(** ** Checks *)

Lemma claim_check_point dbg n b w g p f v : greach dbg n b w g -> on n p -> ~ no_slot_left g ->
  (check_point_by dbg g p f = Ok (error_of v) <-> first_reason (point_reasons n f (table_of g) p) v).
Proof. exact (check_exact dbg n b w g p f v). Qed.

Lemma claim_check_ko dbg n b w g p c : greach dbg n b w g -> on n p -> position g p = None ->
  exists v, check_ko dbg g (p, c) = Ok v /\ (v = true <-> ko_banned n (table_of g) p).
Proof. intros HG Hp. exact (ko_exact dbg n b w g p HG Hp c). Qed.

Lemma claim_check_super_ko dbg n b w g p : greach dbg n b w g -> on n p -> position g p = None -> ~ no_slot_left g ->
  exists v, check_super_ko dbg g (p, gm_turn g) = Ok v /\ (v = true <-> superko_banned n (table_of g) p).
Proof. intros HG Hp He Hn. destruct (superko_exact dbg n b w g p HG Hp He) as [[_ F]|H]; [destruct (Hn F)|exact H]. Qed.

Lemma claim_legals_by dbg n b w g f : greach dbg n b w g -> ~ no_slot_left g ->
  exists l, legals_by dbg g f = Ok l /\ StronglySorted row_major l /\
    forall p, p ∈ l <-> on n p /\ first_reason (point_reasons n f (table_of g) p) Accepted.
Proof.
  intros HG Hn. pose proof (greach_inv dbg n b w g HG) as G. pose proof (gi_wf _ _ _ _ G) as W.
  assert (Hc : forall p, on n p -> check_point_by dbg g p f = Ok None <-> first_reason (point_reasons n f (table_of g) p) Accepted).
  { intros p Hp. exact (check_exact dbg n b w g p f Accepted HG Hp Hn). }
  unfold legals_by, pseudo_legals. rewrite (get_empty_coords_ok n _ W). cbn [bind].
  rewrite (filterM_pure _ (allowed dbg g f)).
  2:{ intros p Hp. apply elem_of_lfilter in Hp as [Hp _]. apply elem_of_points in Hp. unfold allowed.
      destruct (point_exact dbg n b w g p HG Hp f) as [[_ F]|(v & E & _)]; [destruct (Hn F)|]. rewrite E. cbn [bind]. destruct v; reflexivity. }
  eexists. split; [reflexivity|]. split; [apply sorted_lfilter, sorted_lfilter, points_sorted|].
  intros p. rewrite !elem_of_lfilter, elem_of_points. split.
  - intros [[Hp _] Ha]. split; [exact Hp|]. apply (Hc p Hp). unfold allowed in Ha. destruct (check_point_by dbg g p f) as [[]| |]; try discriminate. reflexivity.
  - intros [Hp E]. apply (Hc p Hp) in E. assert (Ha : allowed dbg g f p = true) by (unfold allowed; rewrite E; reflexivity).
    split; [|exact Ha]. split; [exact Hp|]. rewrite (allowed_empty dbg n g f p W Hp Ha). reflexivity.
Qed.

(** one game, judged under two masks *)
Lemma case_masks dbg : exists g b w, greach dbg 9 b w g /\ on 9 (1, 1) /\ position g (1, 1) = None /\ ~ no_slot_left g /\
  check_point_by dbg g (1, 1) KO = Ok (Some EKo) /\ check_point_by dbg g (1, 1) SUICIDE = Ok None /\
  check_ko dbg g ((1, 1), gm_turn g) = Ok true.
Proof.
  destruct (sampleb dbg 9 JAPANESE ko_moves (fun g => has g (1, 1) None && (length (chains (gm_goban g)) <? 100) &&
     match check_point_by dbg g (1, 1) KO with Ok (Some EKo) => true | _ => false end &&
     match check_point_by dbg g (1, 1) SUICIDE with Ok None => true | _ => false end && ok_is (check_ko dbg g ((1, 1), gm_turn g)) true) ltac:(lia))
    as (g & b & w & HG & _ & F); [destruct dbg; vm_compute; reflexivity|].
  bools F. apply bool_decide_eq_true in F. apply Nat.ltb_lt in F3. apply ok_is_eq in F0.
  exists g, b, w. split; [exact HG|]. split; [on_|]. split; [exact F|]. split; [unfold no_slot_left; lia|].
  destruct (check_point_by dbg g (1, 1) KO) as [[[]|]| |]; try discriminate F2. destruct (check_point_by dbg g (1, 1) SUICIDE) as [[|]| |]; try discriminate F1. auto.
Qed.

(** a point banned by superko only *)
Lemma case_superko_check dbg : exists g b w, greach dbg 2 b w g /\ on 2 (0, 0) /\ position g (0, 0) = None /\ ~ no_slot_left g /\
  check_super_ko dbg g ((0, 0), gm_turn g) = Ok true /\ check_ko dbg g ((0, 0), gm_turn g) = Ok false.
Proof.
  destruct (sampleb dbg 2 CHINESE superko_moves (fun g => has g (0, 0) None && (length (chains (gm_goban g)) <? 100) &&
     ok_is (check_super_ko dbg g ((0, 0), gm_turn g)) true && ok_is (check_ko dbg g ((0, 0), gm_turn g)) false) ltac:(lia))
    as (g & b & w & HG & _ & F); [destruct dbg; vm_compute; reflexivity|].
  bools F. apply bool_decide_eq_true in F. apply Nat.ltb_lt in F2. apply ok_is_eq in F1, F0.
  exists g, b, w. split; [exact HG|]. split; [on_|]. split; [exact F|]. split; [unfold no_slot_left; lia|]. auto.
Qed.

(** ** Whole games *)

#[local] Instance error_dec : EqDecision play_error. Proof. solve_decision. Defined.
#[local] Instance verdict_dec : EqDecision verdict. Proof. solve_decision. Defined.

(** a ko: the recapture is refused, accepted after a move elsewhere and an answer to it; then a
    stone on an occupied point, two passes, a stone in the paused game and after its resumption *)
Definition ko_ops : list op :=
  List.map OTry (ko_moves ++ [MPlay 1 1; MPlay 5 5; MPlay 6 6; MPlay 1 1; MPlay 5 5; MPass; MPass; MPlay 7 7]) ++ [OResume; OTry (MPlay 7 7); OTry (MResign White)].
Definition ko_answers : list (option verdict) :=
  replicate 9 (Some Accepted) ++
  [Some (Refused EKo); Some Accepted; Some Accepted; Some Accepted; Some (Refused EPointNotEmpty); Some Accepted; Some Accepted;
   Some (Refused EGamePaused); None; Some Accepted; Some Accepted].

Lemma ko_guarded o : o ∈ ko_ops -> guarded 9 o.
Proof.
  intros H. assert (F : Forall (fun o => guarded 9 o) ko_ops).
  { unfold ko_ops, ko_moves, on. cbn. repeat constructor. }
  rewrite Forall_forall in F. exact (F o H).
Qed.

Lemma case_game dbg : exists g g' t', game_new (Custom 9 9) JAPANESE = Ok g /\ size_of (Custom 9 9) = (9, 9) /\
  (forall o, o ∈ ko_ops -> guarded 9 o) /\ (N.of_nat (all_stones ko_ops) <= 65535)%N /\
  greach dbg 9 0 0 g /\ same_table 9 (table_of g) start /\
  calls dbg g ko_ops = Ok (g', ko_answers) /\ table_run 9 (flag_illegal JAPANESE) start ko_ops ko_answers t' /\ same_table 9 (table_of g') t' /\
  t_pos t' (1, 1) = Some White /\ t_pos t' (1, 2) = None /\ t_outcome t' = Some (WinnerByResign White) /\ t_prisoners t' = (1, 1)%N.
Proof.
  destruct (game_guarded dbg 9 (Custom 9 9) JAPANESE ko_ops ltac:(lia) eq_refl ko_guarded) as (g & g' & l & t' & E & C & R & S); [vm_compute; discriminate|].
  assert (F : match game_new (Custom 9 9) JAPANESE with
              | Ok g => match calls dbg g ko_ops with
                        | Ok (g', l) => bool_decide (l = ko_answers) && has g' (1, 1) (Some White) && has g' (1, 2) None &&
                            match gm_outcome g' with Some (WinnerByResign White) => true | _ => false end && bool_decide (gm_prisoners g' = (1, 1)%N)
                        | _ => false end
              | _ => false end = true) by (destruct dbg; vm_compute; reflexivity).
  rewrite E, C in F. bools F. unfold has in *. apply bool_decide_eq_true in F, F3, F2, F0.
  assert (Ho : gm_outcome g' = Some (WinnerByResign White)) by (destruct (gm_outcome g') as [e|]; [destruct e; try discriminate F1|discriminate F1]; match goal with c : color |- _ => destruct c end; congruence).
  subst l. destruct S as [S1 S2 S3 S4 S5 S6 S7]. destruct (start_table dbg 9 (Custom 9 9) JAPANESE g ltac:(lia) eq_refl E) as [St HG].
  exists g, g', t'. split; [exact E|]. split; [reflexivity|]. split; [exact ko_guarded|]. split; [vm_compute; discriminate|].
  split; [exact HG|]. split; [exact St|]. split; [exact C|]. split; [exact R|]. split; [constructor; assumption|].
  cbn [table_of t_pos t_outcome t_prisoners] in *. rewrite <- (S1 (1, 1)), <- (S1 (1, 2)) by on_. rewrite <- S4, <- S5. auto.
Qed.

(** ** Rewards *)

Lemma leaf_reward order dbg n b0 w0 g k2 c :
  greach dbg n b0 w0 g -> (forall l, order l ≡ₚ l) -> is_f32 (komi g) -> halves (komi g) k2 -> (Z.abs k2 <= 200000)%Z ->
  (fst (gm_prisoners g) < 1000000)%N -> (snd (gm_prisoners g) < 1000000)%N -> gm_outcome g = None -> gm_passes g = 2 ->
  exists tb tw, card (owned n (position g) Black) tb /\ card (owned n (position g) White) tw /\
    let B := black2 (flag_score (gm_rule g)) (N.of_nat tb) (N.of_nat (count n (position g) Black)) (fst (gm_prisoners g)) in
    let Wh := white2 (flag_score (gm_rule g)) (N.of_nat tw) (N.of_nat (count n (position g) White)) (snd (gm_prisoners g)) k2 in
    let mine := match c with Black => B | White => Wh end in
    let theirs := match c with Black => Wh | White => B end in
    (evaluate_leaf order dbg g c = Ok 1 <-> (mine > theirs)%Z) /\
    (evaluate_leaf order dbg g c = Ok 0 <-> (mine < theirs)%Z) /\
    (evaluate_leaf order dbg g c = Panic <-> mine = theirs).
Proof.
  intros HG Ho Hk Hh Hb H1 H2 Hn Hp.
  destruct (outcome_exact order dbg n b0 w0 g k2 HG Ho Hk Hh Hb H1 H2 Hn Hp) as (tb & tw & C1 & C2 & H). exists tb, tw. split; [exact C1|]. split; [exact C2|].
  cbv zeta in H |- *. change (pos_of (gm_goban g)) with (position g) in H.
  set (B := black2 _ _ _ _) in *. set (Wh := white2 _ _ _ _ _) in *. clearbody B Wh. unfold evaluate_leaf, game_get_winner.
  destruct H as [[E H]|[(m & E & H & _)|(m & E & H & _)]]; rewrite E; cbn [bind unwrap endgame_winner]; destruct c; cbn; repeat split; intros; (discriminate || lia || reflexivity).
Qed.

Lemma case_remove_liberty : exists g, bits_ok (g_liberties g) /\ contains_liberty g 39 = Ok true /\ contains_liberty g 40 = Ok false /\
  group_liberties g = Ok [31; 39; 41; 49] /\ forall j, j ∈ [3; 39] -> j < 368.
Proof.
  destruct (union_slice_api (group_new Black 40) [31; 39; 41; 49]) as (g & E & B & _ & _); [apply bits_ok_empty|intros j Hj; rewrite !elem_of_cons, elem_of_nil in Hj; lia|].
  exists g. split; [exact B|]. vm_compute in E. injection E as <-. split; [reflexivity|]. split; [reflexivity|]. split; [reflexivity|].
  intros j Hj. rewrite !elem_of_cons, elem_of_nil in Hj. lia.
Qed.
