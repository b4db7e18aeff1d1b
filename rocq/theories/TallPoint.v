(** Queries about a point, the single checks and the trial move, on boards whose
    width divides their height. *)
From stdpp Require Import relations sorting.
From Verif Require Import GroupMore VerdictSpec PlayoutSpec Observe RectSpec RectVerdictSpec RectReach.
From Verif Require Import MonadFacts BitsetFacts CoordFacts Struct Push Inv Bridge GameFacts RulesFacts BoardFacts LegalsFacts ClaimFacts ApiFacts ViewFacts VerdictFacts QueryFacts.
From Verif Require Import RectCoord RectInv RectCapture RectRemove RectBridge RectBoard RectRules RectMoves RectEye RectCheck RectGame RectReachFacts RectVerdict RectList RectGo RectViews RefuteFacts CaseFacts PlayClaims.
From Coq Require Import Lia.

Local Notation length := Datatypes.length.
Open Scope nat_scope.

(** ** Neighbours *)

Lemma tall_points dbg n g p : rwf n g -> ron n p ->
  exists l, get_connected_points dbg g p = Ok l /\ NoDup l.*1 /\ forall q c, (q, c) ∈ l <-> ron n q /\ adj p q /\ pos_of g q = c.
Proof.
  intros W Hp. rewrite (rconnected_points_ok dbg n g p W Hp). eexists. split; [reflexivity|]. split; [apply NoDup_map_fst, rNoDup_nbrs|].
  intros q c. rewrite elem_of_list_In, in_map_iff. split.
  - intros (x & E & Hx). injection E as -> <-. apply elem_of_list_In, (relem_of_nbrs n p q Hp) in Hx. tauto.
  - intros (Hq & Ha & <-). exists q. split; [reflexivity|]. apply elem_of_list_In, (relem_of_nbrs n p q Hp). auto.
Qed.

Lemma tall_stones dbg n g p : rwf n g -> ron n p ->
  exists l, get_connected_stones dbg g p = Ok l /\ NoDup l.*1 /\ forall q c, (q, c) ∈ l <-> ron n q /\ adj p q /\ pos_of g q = Some c.
Proof.
  intros W Hp. unfold get_connected_stones. destruct (tall_points dbg n g p W Hp) as (l & E & Nd & Hl). rewrite E. cbn [bind].
  eexists. split; [reflexivity|]. split.
  - clear -Nd. induction l as [|[q [c|]] l IH]; cbn in *; [constructor| |]; apply NoDup_cons in Nd as [Hq Nd]; [|auto].
    apply NoDup_cons. split; [|auto]. intros F. apply Hq. clear -F. apply elem_of_list_fmap in F as ([q' c'] & Eq & F). cbn in Eq. subst q'.
    apply elem_of_list_omap in F as ([q'' o] & Hx & Eo). cbn in Eo. destruct o; [|discriminate]. injection Eo as -> ->. apply elem_of_list_fmap. exists (q, Some c'). auto.
  - intros q c. rewrite elem_of_list_omap. split.
    + intros ([q' o] & Hx & Eo). cbn in Eo. destruct o; [|discriminate]. injection Eo as -> ->. apply Hl, Hx.
    + intros H. exists (q, Some c). split; [apply Hl, H|reflexivity].
Qed.

Lemma tall_liberties dbg n g p : rwf n g -> ron n p ->
  exists l, get_liberties dbg g p = Ok l /\ NoDup l /\ (forall q, q ∈ l <-> ron n q /\ adj p q /\ pos_of g q = None) /\
    has_liberties dbg g p = Ok (negb (length l =? 0)%nat).
Proof.
  intros W Hp. unfold get_liberties. rewrite (rneighbors_ok dbg n g p W Hp). cbn [bind].
  rewrite (filterM_pure _ (fun x => mcolor_eqb (pos_of g x) None)).
  2:{ intros x Hx. apply (relem_of_nbrs n p x Hp) in Hx as [Hx _]. rewrite (rget_color_pos n g x W Hx). reflexivity. }
  set (l := List.filter (fun x => mcolor_eqb (pos_of g x) None) (rnbrs n p)). exists l. split; [reflexivity|].
  assert (Hl : forall q, q ∈ l <-> ron n q /\ adj p q /\ pos_of g q = None).
  { intros q. unfold l. rewrite elem_of_list_In, filter_In, <- elem_of_list_In, (relem_of_nbrs n p q Hp).
    destruct (mcolor_eqb_spec (pos_of g q) None); intuition congruence. }
  split; [apply NoDup_ListNoDup, List.NoDup_filter, NoDup_ListNoDup, rNoDup_nbrs|]. split; [exact Hl|].
  destruct (rhas_liberties_ok dbg n g p W Hp) as (v & E & Hv). rewrite E. f_equal. apply eq_true_iff_eq. rewrite Hv, negb_true_iff, Nat.eqb_neq. split.
  - intros (q & Hq). apply Hl in Hq. destruct l; [inversion Hq|cbn; lia].
  - intros H. destruct l as [|q l]; [cbn in H; lia|]. exists q. apply Hl. left.
Qed.

Lemma tall_neighbours dbg n b w g p : Nat.divide (snd n) (fst n) -> rgreach dbg n b w g -> ron n p ->
  (exists l, get_connected_points dbg (gm_goban g) p = Ok l /\ NoDup l.*1 /\ forall q c, (q, c) ∈ l <-> ron n q /\ adj p q /\ position g q = c) /\
  (exists l, get_connected_stones dbg (gm_goban g) p = Ok l /\ NoDup l.*1 /\ forall q c, (q, c) ∈ l <-> ron n q /\ adj p q /\ position g q = Some c) /\
  (exists l, get_liberties dbg (gm_goban g) p = Ok l /\ NoDup l /\ (forall q, q ∈ l <-> ron n q /\ adj p q /\ position g q = None) /\
     has_liberties dbg (gm_goban g) p = Ok (negb (length l =? 0))).
Proof.
  intros Hd HG Hp. pose proof (rgi_wf _ _ _ _ (rgreach_inv dbg n b w g Hd HG)) as W.
  split; [exact (tall_points dbg n _ p W Hp)|]. split; [exact (tall_stones dbg n _ p W Hp)|exact (tall_liberties dbg n _ p W Hp)].
Qed.

Lemma tall_groups dbg n b w g p : Nat.divide (snd n) (fst n) -> rgreach dbg n b w g -> ron n p ->
  exists ks gs, get_connected_groups_idx dbg (gm_goban g) (index (fst n) p) = Ok ks /\ get_connected_groups dbg (gm_goban g) p = Ok gs /\ NoDup ks /\
    (forall k, k ∈ ks <-> exists q, ron n q /\ adj p q /\ group_no (gm_goban g) q = Some k) /\
    Forall2 (fun k grp => chains (gm_goban g) !! k = Some (Some grp)) ks gs.
Proof.
  intros Hd HG Hp. pose proof (rgi_wf _ _ _ _ (rgreach_inv dbg n b w g Hd HG)) as W. set (x := gm_goban g) in *. pose proof (rwf_n n x W) as F.
  unfold get_connected_groups. rewrite (rwf_size n x W). change (two_to_1dim n p) with (ridx n p). change (index (fst n) p) with (ridx n p).
  destruct (rconnected_spec dbg n x (ridx n p) F (rwf_size n x W) (wf0_board x (rwf_0 n x W)) (ridx_on n p F Hp)) as (l & -> & Nd & Hl).
  cbn [bind]. destruct (mapM_live x l) as (gs & E & HF).
  { intros k Hk. apply Hl in Hk as (j & _ & Hk). destruct (wf0_cell x (rwf_0 n x W) j k Hk) as [grp H]. eauto. }
  exists l, gs. split; [reflexivity|]. split; [exact E|]. split; [exact Nd|]. split; [|exact HF].
  intros k. rewrite Hl. split.
  - intros (j & Hj & Hk). pose proof (rwf_on n x W j k Hk) as Hjn.
    exists (rpt n j). split; [apply rpt_on, Hjn|]. split.
    + apply (radj_nb n); [exact F|exact Hp|apply rpt_on, Hjn|]. rewrite ridx_pt by exact Hjn. exact Hj.
    + rewrite (rgroup_no_cell n), ridx_pt; assumption.
  - intros (q & Hq & Ha & E'). exists (ridx n q). split; [apply radj_nb; assumption|]. rewrite <- (rgroup_no_cell n x q W). exact E'.
Qed.

Lemma tall_iterator dbg n b w g k grp : Nat.divide (snd n) (fst n) -> rgreach dbg n b w g -> chains (gm_goban g) !! k = Some (Some grp) ->
  exists l, NoDup l /\ (forall i, i ∈ l <-> exists p, ron n p /\ i = index (fst n) p /\ group_no (gm_goban g) p = Some k) /\
    group_iter dbg grp (next_stone (gm_goban g)) = Ok l /\
    forall i, exists it it', iter_after dbg (next_stone (gm_goban g)) (iter_new grp) i = Ok it /\
      iter_next dbg (next_stone (gm_goban g)) it = Ok (it', l !! i) /\
      iter_size_hint it = (length l, Some (length l)).
Proof.
  intros Hd HG H. pose proof (rgi_wf _ _ _ _ (rgreach_inv dbg n b w g Hd HG)) as W. set (x := gm_goban g) in *.
  assert (Hk : live x k = Some grp) by (unfold live; rewrite H; reflexivity).
  destruct (wf0_chain x (rwf_0 n x W) k grp Hk) as [_ (l & R & Hm)]. pose proof (wf0_iter dbg x k grp l (rwf_0 n x W) R Hm) as E.
  exists l. split; [exact (ring_nodup _ _ _ R)|]. split; [|split; [exact E|]].
  - intros i. rewrite Hm. split.
    + intros Hc. pose proof (rwf_on n x W i k Hc) as V. exists (rpt n i). split; [exact (rpt_on n i V)|]. split; [symmetry; exact (ridx_pt n i V)|].
      rewrite (rgroup_no_cell n x _ W), (ridx_pt n i V). exact Hc.
    + intros (p & On & -> & Hc). rewrite (rgroup_no_cell n x p W) in Hc. exact Hc.
  - intros i. destruct (iter_steps dbg (next_stone x) (g_origin grp) (g_num_stones grp) _ _ _ E i) as (it & H1 & -> & it' & H3).
    eexists _, it'. split; [exact H1|]. split; [exact H3|]. unfold iter_size_hint. cbn. rewrite (ring_num _ _ _ R). reflexivity.
Qed.

(** ** The occupied cells *)

Lemma occupied_from (f : nat -> option nat) len : forall a,
  omap (fun '(i, cell) => match cell with Some _ => Some i | None => None end)
    (zip (seq a (length (List.map f (seq a len)))) (List.map f (seq a len))) =
  List.filter (fun i => negb (is_none (f i))) (seq a len).
Proof.
  intros a. rewrite map_length, seq_length. revert a. induction len as [|len IH]; intros a; [reflexivity|].
  cbn [seq List.map List.filter zip zip_with omap list_omap]. rewrite <- IH. destruct (f a); reflexivity.
Qed.

Lemma tall_occupied dbg n b w g : Nat.divide (snd n) (fst n) -> rgreach dbg n b w g ->
  StronglySorted lt (get_empty_idx (gm_goban g)) /\
  forall i, i ∈ get_empty_idx (gm_goban g) <-> exists p, ron n p /\ i = index (fst n) p /\ position g p <> None.
Proof.
  intros Hd HG. pose proof (rgi_wf _ _ _ _ (rgreach_inv dbg n b w g Hd HG)) as W. unfold position. set (x := gm_goban g) in *. pose proof (rwf_n n x W) as F.
  unfold get_empty_idx. rewrite (rboard_cells n x W).
  rewrite occupied_from. split.
  { apply sorted_lfilter. clear. generalize 0%nat, 361%nat. intros a len. revert a.
    induction len as [|len IH]; intros a; cbn; constructor; [apply IH|]. apply Forall_forall. intros y Hy. apply elem_of_seq in Hy. lia. }
  intros i. rewrite elem_of_lfilter, elem_of_seq. split.
  - intros [H1 H2]. destruct (cell x i) as [k|] eqn:Ec; [|discriminate]. pose proof (rwf_on n x W i k Ec) as V.
    exists (rpt n i). pose proof (rpt_on n i V) as On. split; [exact On|]. split; [symmetry; exact (ridx_pt n i V)|].
    rewrite (rpos_of_col n x _ W On), (ridx_pt n i V). destruct (rcol_cell n x i k W Ec) as (grp & _ & ->). discriminate.
  - intros (p & On & -> & Hp). destruct (rstone_group n x p W On Hp) as (k & grp & Hk & _). change (index (fst n) p) with (ridx n p).
    rewrite Hk. split; [|reflexivity]. pose proof (vi_361 n _ F (ridx_on n p F On)). lia.
Qed.

(** ** The checks *)

Lemma tall_check dbg n b w g p f v : Nat.divide (snd n) (fst n) -> rgreach dbg n b w g -> ron n p -> ~ no_slot_left g ->
  (check_point_by dbg g p f = Ok (error_of v) <-> first_reason (rpoint_reasons n f (table_of g) p) v).
Proof. exact (rcheck_exact dbg n b w g p f v). Qed.

Lemma tall_check_ko dbg n b w g p c : Nat.divide (snd n) (fst n) -> rgreach dbg n b w g -> ron n p -> position g p = None ->
  exists v, check_ko dbg g (p, c) = Ok v /\ (v = true <-> rko_banned n (table_of g) p).
Proof. intros Hd HG Hp. exact (rko_exact dbg n b w g p Hd HG Hp c). Qed.

Lemma tall_check_super_ko dbg n b w g p : Nat.divide (snd n) (fst n) -> rgreach dbg n b w g -> ron n p -> position g p = None -> ~ no_slot_left g ->
  exists v, check_super_ko dbg g (p, gm_turn g) = Ok v /\ (v = true <-> rsuperko_banned n (table_of g) p).
Proof. intros Hd HG Hp He Hn. destruct (RectVerdict.rsuperko_exact dbg n b w g p Hd HG Hp He) as [[_ F]|H]; [destruct (Hn F)|exact H]. Qed.

Lemma tall_check_suicide dbg n b w g p c : Nat.divide (snd n) (fst n) -> rgreach dbg n b w g -> ron n p -> position g p = None ->
  exists v, check_suicide dbg g (p, c) = Ok v /\ (v = true <-> rsuicidal n (position g) p c).
Proof. intros Hd HG Hp He. exact (rcheck_suicide_ok dbg n g p c (rgi_wf _ _ _ _ (rgreach_inv dbg n b w g Hd HG)) Hp He). Qed.

Lemma tall_will_capture dbg n b w g p : Nat.divide (snd n) (fst n) -> rgreach dbg n b w g -> ron n p -> position g p = None ->
  exists v, will_capture dbg g p = Ok v /\ (v = true <-> rcaptures n (position g) p (gm_turn g)).
Proof. intros Hd HG Hp He. exact (rwill_capture_ok dbg n g p (rgi_wf _ _ _ _ (rgreach_inv dbg n b w g Hd HG)) Hp He). Qed.

Lemma tall_check_eye dbg n b w g p c : Nat.divide (snd n) (fst n) -> rgreach dbg n b w g -> ron n p ->
  exists v, check_eye dbg g (p, c) = Ok v /\ (v = true <-> reye_shape n (position g) c p).
Proof.
  intros Hd HG Hp. pose proof (rgi_wf _ _ _ _ (rgreach_inv dbg n b w g Hd HG)) as W.
  exists (reye n (position g) c p). split; [exact (rcheck_eye_ok dbg n g p c W Hp)|]. apply reye_iff; [exact (rwf_n n _ W)|exact Hp].
Qed.

Lemma tall_legals_by dbg n b w g f k p : fst n = k * snd n -> rgreach dbg n b w g -> ~ no_slot_left g ->
  exists l, legals_by dbg g f = Ok l /\
    (fst p < snd n -> snd p < snd n -> first_reason (rpoint_reasons n f (table_of g) p) Accepted -> times p l = k) /\
    (~ (fst p < snd n /\ snd p < snd n /\ first_reason (rpoint_reasons n f (table_of g) p) Accepted) -> times p l = 0).
Proof.
  intros Hk HG HL. pose proof (ex_intro _ k Hk : Nat.divide (snd n) (fst n)) as Hd.
  pose proof (rgreach_inv _ _ _ _ _ Hd HG) as G. pose proof (rgi_wf _ _ _ _ G) as W.
  pose proof (rwf_n n _ W) as F. pose proof (fits_wide n F) as Hw.
  destruct (rempty_times n _ k p W Hk) as (l & E & Hon & T).
  set (h := fun q => match check_point_by dbg g q f with Ok None => true | _ => false end).
  assert (HE : legals_by dbg g f = Ok (List.filter h l)).
  { unfold legals_by, pseudo_legals. rewrite E. cbn [bind]. apply filterM_ok. intros q Hq. apply Hon in Hq.
    unfold h. destruct (rpoint_exact dbg n b w g q Hd HG Hq f) as [[_ K]|(v & Ev & _)]; [contradiction|]. rewrite Ev. reflexivity. }
  exists (List.filter h l). split; [exact HE|]. rewrite times_filter, T.
  assert (Hh : ron n p -> h p = true <-> first_reason (rpoint_reasons n f (table_of g) p) Accepted).
  { intros Hp. pose proof (rcheck_exact dbg n b w g p f Accepted Hd HG Hp HL) as K. rewrite <- K. unfold h. cbn [error_of].
    destruct (check_point_by dbg g p f) as [[e|]| |]; split; congruence. }
  split.
  - intros H1 H2 H3. rewrite (proj2 (Hh ltac:(split; lia)) H3). apply Nat.ltb_lt in H1, H2. rewrite H1, H2. cbn [andb].
    apply Forall_cons in H3 as [H3 _]. cbn [snd t_pos table_of] in H3. unfold position in H3. destruct (pos_of _ p); [exfalso; apply H3; discriminate|reflexivity].
  - intros HN. destruct (h p) eqn:Ep; [|reflexivity]. destruct (Nat.ltb_spec (fst p) (snd n)) as [H1|]; [|reflexivity].
    destruct (Nat.ltb_spec (snd p) (snd n)) as [H2|]; [|reflexivity]. exfalso. apply HN. split; [exact H1|]. split; [exact H2|].
    apply Hh; [split; lia|reflexivity].
Qed.

(** ** The trial move *)

Lemma rsuicide_differs n P p c R R' s : fits n -> ron n p -> rsuicidal n P p c ->
  rgo_move s n P p c R -> rgo_move (negb s) n P p c R' -> ~ rsame_pos n R R'.
Proof.
  intros Hn On (Q0 & HQ0 & Hd) M M' Hs.
  assert (K : forall R1 b, rgo_move b n P p c R1 -> if b then R1 p = None else R1 p = Some c).
  { intros R1 b (Q & HQ & HR).
    assert (E : rsame_pos n Q0 Q) by (eapply rcleared_det; [|intros q _; reflexivity|exact HQ0|exact HQ]; intros; reflexivity).
    assert (Hd' : ~ rbreathes n Q p).
    { intros [l (Hl & He & q & Hc & Ha)]. apply Hd. exists l. split; [exact Hl|]. split; [rewrite E by exact Hl; exact He|].
      exists q. split; [|exact Ha]. eapply rconnected_ext; [|exact Hc]. intros x Hx. symmetry. apply E, Hx. }
    assert (Qp : Q p = Some c).
    { rewrite (proj2 (HQ p On)); [unfold put; rewrite decide_True by reflexivity; reflexivity|].
      intros Ht. apply rtaken_color in Ht. unfold put in Ht. rewrite decide_True in Ht by reflexivity. injection Ht as Ht. destruct c; discriminate. }
    destruct (HR p On) as [H1 H2]. destruct b.
    - apply H1. split; [reflexivity|]. split; [exact Hd'|]. apply rtc_refl.
    - rewrite H2; [exact Qp|]. intros [? _]. discriminate. }
  pose proof (K _ _ M) as A. pose proof (K _ _ M') as B. pose proof (Hs p On) as C. destruct s; cbn in *; congruence.
Qed.

Lemma tall_verification dbg n b w g x y : Nat.divide (snd n) (fst n) -> rgreach dbg n b w g -> ron n (x, y) -> position g (x, y) = None ->
  play dbg g (MPlay x y) <> Panic ->
  exists v g' r, play_for_verification dbg g (x, y) = Ok v /\ play dbg g (MPlay x y) = Ok g' /\
    goban_eq v (gm_goban g') = Ok r /\ (r = true <-> ~ rsuicidal n (position g) (x, y) (gm_turn g)).
Proof.
  intros Hd HG On He L. pose proof (rgreach_inv dbg n b w g Hd HG) as G. pose proof (rgi_wf _ _ _ _ G) as W. pose proof (rwf_n n _ W) as Hn.
  destruct (rplay_spec dbg n b w g x y G On He) as [(F & _)|(g' & Eg & G' & Mg & HL & _)]; [contradiction|].
  destruct (rverification_ok dbg n g (x, y) W On He) as [(_ & F & F')|(v & Ev & Wv & Mv)].
  { exfalso. destruct HL as [[HL _]|[_ HL]]; [contradiction|]. pose proof (wf0_len _ (rwf_0 n _ (rgi_wf _ _ _ _ G'))). lia. }
  destruct (rgoban_eq_spec n v (gm_goban g') Wv (rgi_wf _ _ _ _ G')) as (r & Er & Hr).
  exists v, g', r. split; [exact Ev|]. split; [exact Eg|]. split; [exact Er|]. rewrite Hr. split.
  - intros Hs Hsu. eapply (rsuicide_differs n _ _ _ _ _ (flag_contains (flag_illegal (gm_rule g)) SUICIDE)); [exact Hn|exact On|exact Hsu|exact Mv|exact Mg|exact Hs].
  - intros Hns. eapply (rgo_move_det _ n); [intros q Hq; reflexivity|exact Mv|]. eapply rgo_move_flag; [exact Hns|exact Mg].
Qed.

(** ** Concrete games *)

Lemma rsampleb dbg h w r l (f : game -> bool) : 1 <= h < 256 -> 1 <= w < 256 -> sat (rsample dbg h w r l) f = true ->
  exists g b w', rgreach dbg (h, w) b w' g /\ f g = true.
Proof.
  intros Hh Hw H. destruct (rsample dbg h w r l) as [g|] eqn:E; [|discriminate].
  destruct (rsample_reach dbg h w r l g Hh Hw E) as (b & w' & HG & _). exists g, b, w'. auto.
Qed.

(** after a capture in a ko *)
Definition near_ko (dbg : bool) (g : game) : bool :=
  has g (1, 1) None && has g (0, 1) (Some Black) && has g (1, 2) (Some Black) && has g (2, 2) (Some White) && has g (7, 0) None && (length (chains (gm_goban g)) <? 100) &&
  bool_decide (match get_connected_groups_idx dbg (gm_goban g) (index 8 (1, 1)) with Ok l => length l | _ => 0 end = 4) &&
  bool_decide (match get_liberties dbg (gm_goban g) (1, 1) with Ok l => Some (length l) | _ => None end = Some 0) &&
  bool_decide (match get_liberties dbg (gm_goban g) (7, 0) with Ok l => Some (length l) | _ => None end = Some 2) &&
  match check_point_by dbg g (1, 1) KO with Ok (Some EKo) => true | _ => false end &&
  match check_point_by dbg g (1, 1) SUICIDE with Ok None => true | _ => false end && ok_is (check_ko dbg g ((1, 1), gm_turn g)) true &&
  ok_is (will_capture dbg g (1, 1)) true && ok_is (will_capture dbg g (7, 0)) false.

Lemma case_tall_ko dbg : exists g b w, Nat.divide 4 8 /\ rgreach dbg (8, 4) b w g /\ ~ no_slot_left g /\ ron (8, 4) (1, 1) /\ ron (8, 4) (7, 0) /\
  position g (1, 1) = None /\ position g (0, 1) = Some Black /\ position g (1, 2) = Some Black /\ position g (2, 2) = Some White /\ position g (7, 0) = None /\
  get_liberties dbg (gm_goban g) (1, 1) = Ok [] /\ has_liberties dbg (gm_goban g) (1, 1) = Ok false /\ has_liberties dbg (gm_goban g) (7, 0) = Ok true /\
  check_point_by dbg g (1, 1) KO = Ok (Some EKo) /\ check_point_by dbg g (1, 1) SUICIDE = Ok None /\
  check_ko dbg g ((1, 1), gm_turn g) = Ok true /\ will_capture dbg g (1, 1) = Ok true /\ will_capture dbg g (7, 0) = Ok false.
Proof.
  assert (Hd : Nat.divide (snd (8, 4)) (fst (8, 4))) by (exists 2; reflexivity).
  destruct (rsampleb dbg 8 4 JAPANESE Samples.ko_moves (near_ko dbg) ltac:(lia) ltac:(lia)) as (g & b & w & HG & F); [destruct dbg; vm_compute; reflexivity|].
  unfold near_ko in F. bools F. unfold has in *. repeat match goal with H : bool_decide _ = true |- _ => apply bool_decide_eq_true in H end.
  repeat match goal with H : ok_is _ _ = true |- _ => apply ok_is_eq in H end.
  repeat match goal with H : (_ <? _) = true |- _ => apply Nat.ltb_lt in H end.
  exists g, b, w. split; [exact Hd|]. split; [exact HG|].
  assert (O1 : ron (8, 4) (1, 1)) by (unfold ron; cbn; lia). assert (O2 : ron (8, 4) (7, 0)) by (unfold ron; cbn; lia).
  split; [unfold no_slot_left; lia|]. split; [exact O1|]. split; [exact O2|]. do 5 (split; [assumption|]).
  destruct (tall_neighbours dbg (8, 4) b w g (1, 1) Hd HG O1) as (_ & _ & l1 & E1 & _ & _ & L1).
  destruct (tall_neighbours dbg (8, 4) b w g (7, 0) Hd HG O2) as (_ & _ & l2 & E2 & _ & _ & L2).
  rewrite E1, E2 in *. destruct l1; [|discriminate]. destruct l2 as [|? [|? []]]; try discriminate.
  split; [reflexivity|]. split; [exact L1|]. split; [exact L2|].
  destruct (check_point_by dbg g (1, 1) KO) as [[[]|]| |]; try discriminate. destruct (check_point_by dbg g (1, 1) SUICIDE) as [[|]| |]; try discriminate. auto.
Qed.

Lemma case_tall_eyes dbg : exists g b w, Nat.divide 4 8 /\ rgreach dbg (8, 4) b w g /\ ron (8, 4) (0, 0) /\ ron (8, 4) (7, 3) /\ ron (8, 4) (2, 2) /\
  check_eye dbg g ((0, 0), Black) = Ok true /\ check_eye dbg g ((7, 3), Black) = Ok false /\ check_eye dbg g ((2, 2), Black) = Ok false /\
  position g (7, 2) = Some Black /\ position g (6, 3) = Some Black /\ position g (6, 2) = Some White.
Proof.
  destruct (rsampleb dbg 8 4 JAPANESE [MPlay 0 1; MPass; MPlay 1 0; MPass; MPlay 1 1; MPass; MPlay 7 2; MPlay 6 2; MPlay 6 3; MPass]
    (fun g => ok_is (check_eye dbg g ((0, 0), Black)) true && ok_is (check_eye dbg g ((7, 3), Black)) false && ok_is (check_eye dbg g ((2, 2), Black)) false &&
       has g (7, 2) (Some Black) && has g (6, 3) (Some Black) && has g (6, 2) (Some White)) ltac:(lia) ltac:(lia)) as (g & b & w & HG & F); [destruct dbg; vm_compute; reflexivity|].
  bools F. apply ok_is_eq in F, F4, F3. apply bool_decide_eq_true in F2, F1, F0. exists g, b, w. split; [exists 2; reflexivity|].
  split; [exact HG|]. do 3 (split; [unfold ron; cbn; lia|]). auto 10.
Qed.

Definition panics {A} (m : res A) : bool := match m with Panic => true | _ => false end.

(** White is to move; the corner is a suicide, the point below it is not *)
Lemma case_tall_trial dbg : exists g b w, Nat.divide 3 6 /\ 6 = 2 * 3 /\ rgreach dbg (6, 3) b w g /\ ~ no_slot_left g /\ gm_turn g = White /\ ron (6, 3) (0, 0) /\ position g (0, 0) = None /\
  play dbg g (MPlay 0 0) <> Panic /\ check_suicide dbg g ((0, 0), White) = Ok true /\
  ron (6, 3) (1, 1) /\ position g (1, 1) = None /\ play dbg g (MPlay 1 1) <> Panic /\ check_suicide dbg g ((1, 1), White) = Ok false /\
  ~ first_reason (rpoint_reasons (6, 3) SUICIDE (table_of g) (0, 0)) Accepted /\ first_reason (rpoint_reasons (6, 3) SUICIDE (table_of g) (1, 1)) Accepted.
Proof.
  assert (Hd : Nat.divide (snd (6, 3)) (fst (6, 3))) by (exists 2; reflexivity).
  destruct (rsampleb dbg 6 3 JAPANESE corner_trap
    (fun g => bool_decide (gm_turn g = White) && has g (0, 0) None && has g (1, 1) None && (length (chains (gm_goban g)) <? 100) &&
       negb (panics (play dbg g (MPlay 0 0))) && negb (panics (play dbg g (MPlay 1 1))) &&
       ok_is (check_suicide dbg g ((0, 0), White)) true && ok_is (check_suicide dbg g ((1, 1), White)) false &&
       match check_point_by dbg g (0, 0) SUICIDE with Ok None => false | _ => true end &&
       match check_point_by dbg g (1, 1) SUICIDE with Ok None => true | _ => false end) ltac:(lia) ltac:(lia)) as (g & b & w & HG & F); [destruct dbg; vm_compute; reflexivity|].
  bools F. unfold has in *. repeat match goal with H : bool_decide _ = true |- _ => apply bool_decide_eq_true in H end.
  repeat match goal with H : ok_is _ _ = true |- _ => apply ok_is_eq in H end.
  repeat match goal with H : (_ <? _) = true |- _ => apply Nat.ltb_lt in H end.
  assert (N0 : ~ no_slot_left g) by (unfold no_slot_left; lia).
  assert (O1 : ron (6, 3) (0, 0)) by (unfold ron; cbn; lia). assert (O2 : ron (6, 3) (1, 1)) by (unfold ron; cbn; lia).
  exists g, b, w. split; [exact Hd|]. split; [reflexivity|]. split; [exact HG|]. split; [exact N0|]. split; [assumption|]. split; [exact O1|]. split; [assumption|].
  split; [destruct (play dbg g (MPlay 0 0)); [discriminate|discriminate|discriminate]|].
  split; [assumption|]. split; [exact O2|]. split; [assumption|].
  split; [destruct (play dbg g (MPlay 1 1)); [discriminate|discriminate|discriminate]|]. split; [assumption|].
  rewrite <- (tall_check dbg (6, 3) b w g (0, 0) SUICIDE Accepted Hd HG O1 N0), <- (tall_check dbg (6, 3) b w g (1, 1) SUICIDE Accepted Hd HG O2 N0). cbn [error_of]. split.
  - intros E. rewrite E in *. discriminate.
  - destruct (check_point_by dbg g (1, 1) SUICIDE) as [[|]| |]; try discriminate. reflexivity.
Qed.

(** the trial move does not predict a suicide *)
Lemma tall_trial_wrong dbg : exists g b w v g', rgreach dbg (6, 3) b w g /\ position g (0, 0) = None /\
  play_for_verification dbg g (0, 0) = Ok v /\ play dbg g (MPlay 0 0) = Ok g' /\ goban_eq v (gm_goban g') = Ok false.
Proof.
  destruct (case_tall_trial dbg) as (g & b & w & Hd & _ & HG & _ & Ht & On & He & HP & Hs & _).
  destruct (tall_verification dbg (6, 3) b w g 0 0 Hd HG On He HP) as (v & g' & r & E1 & E2 & E3 & Hr). exists g, b, w, v, g'. do 4 (split; [assumption|]).
  rewrite E3. f_equal. destruct r; [|reflexivity]. exfalso. apply (proj1 Hr eq_refl).
  destruct (tall_check_suicide dbg (6, 3) b w g (0, 0) White Hd HG On He) as (u & Eu & Hu). pose proof (eq_trans (eq_sym Hs) Eu) as Eb. injection Eb as <-. rewrite Ht. apply Hu. reflexivity.
Qed.

(** a point banned by superko only *)
Lemma case_tall_super dbg : exists g b w, Nat.divide 1 3 /\ rgreach dbg (3, 1) b w g /\ ron (3, 1) (0, 0) /\ position g (0, 0) = None /\ ~ no_slot_left g /\
  check_super_ko dbg g ((0, 0), gm_turn g) = Ok true /\ check_ko dbg g ((0, 0), gm_turn g) = Ok false.
Proof.
  destruct (rsampleb dbg 3 1 CHINESE [MPlay 0 0; MPlay 1 0; MPass; MPlay 2 0]
    (fun g => has g (0, 0) None && (length (chains (gm_goban g)) <? 100) && ok_is (check_super_ko dbg g ((0, 0), gm_turn g)) true && ok_is (check_ko dbg g ((0, 0), gm_turn g)) false)
    ltac:(lia) ltac:(lia)) as (g & b & w & HG & F); [destruct dbg; vm_compute; reflexivity|].
  bools F. apply bool_decide_eq_true in F. apply Nat.ltb_lt in F2. apply ok_is_eq in F1, F0.
  exists g, b, w. split; [exists 3; reflexivity|]. split; [exact HG|]. split; [unfold ron; cbn; lia|]. split; [exact F|]. split; [unfold no_slot_left; lia|]. auto.
Qed.

(** a group of three stones that bends *)
Lemma case_tall_walk dbg : exists g b w k grp l, Nat.divide 3 6 /\ rgreach dbg (6, 3) b w g /\ group_no (gm_goban g) (4, 0) = Some k /\
  chains (gm_goban g) !! k = Some (Some grp) /\ group_iter dbg grp (next_stone (gm_goban g)) = Ok l /\ length l = 3 /\
  position g (4, 0) = Some Black /\ position g (5, 0) = Some Black /\ position g (5, 1) = Some Black.
Proof.
  destruct (rsampleb dbg 6 3 JAPANESE [MPlay 4 0; MPass; MPlay 5 0; MPass; MPlay 5 1]
    (fun g => has g (4, 0) (Some Black) && has g (5, 0) (Some Black) && has g (5, 1) (Some Black) &&
      match group_no (gm_goban g) (4, 0) with
      | Some k => match chains (gm_goban g) !! k with
                  | Some (Some grp) => match group_iter dbg grp (next_stone (gm_goban g)) with Ok l => length l =? 3 | _ => false end
                  | _ => false end
      | None => false end) ltac:(lia) ltac:(lia)) as (g & b & w & HG & F); [destruct dbg; vm_compute; reflexivity|].
  bools F. unfold has in *. apply bool_decide_eq_true in F, F1, F2.
  destruct (group_no (gm_goban g) (4, 0)) as [k|] eqn:E1; [|discriminate]. destruct (chains (gm_goban g) !! k) as [[grp|]|] eqn:E2; try discriminate.
  destruct (group_iter dbg grp (next_stone (gm_goban g))) as [l| |] eqn:E3; try discriminate. apply Nat.eqb_eq in F0.
  exists g, b, w, k, grp, l. split; [exists 2; reflexivity|]. auto 10.
Qed.
