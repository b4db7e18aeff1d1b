(** The checks decide as [VerdictSpec.v] says. *)
From stdpp Require Import relations sorting.
From Verif Require Import VerdictSpec PlayoutSpec.
From Verif Require Import MonadFacts Struct Push Inv Bridge GameFacts RulesFacts KoFacts BoardFacts CheckFacts EyeFacts EyeExact LegalFacts LegalsFacts ClaimFacts.
From Coq Require Import Lia.

Lemma first_reason_unique l v v' : first_reason l v -> first_reason l v' -> v = v'.
Proof.
  assert (K : forall l (e : play_error) (R : Prop) before after, l = before ++ (e, R) :: after -> R -> Forall (fun r : play_error * Prop => ~ snd r) l -> False).
  { intros l0 e R before after -> HR HF. apply Forall_app in HF as [_ HF]. apply Forall_cons in HF as [HF _]. exact (HF HR). }
  destruct v as [|e], v' as [|e']; cbn [first_reason].
  - reflexivity.
  - intros H (b & R & a & E & HR & _). destruct (K _ _ _ _ _ E HR H).
  - intros (b & R & a & E & HR & _) H. destruct (K _ _ _ _ _ E HR H).
  - intros (b & R & a & E & HR & HB) (b' & R' & a' & E' & HR' & HB'). f_equal.
    rewrite E in E'. clear E. revert b' E' HB'. induction b as [|x b IH]; intros [|x' b'] E' HB'; cbn in E'.
    + injection E' as E1 E2 E3. exact E1.
    + injection E' as E1 E2. subst x'. apply Forall_cons in HB' as [F _]. destruct (F HR).
    + injection E' as E1 E2. subst x. apply Forall_cons in HB as [F _]. destruct (F HR').
    + injection E' as E1 E2. apply Forall_cons in HB as [_ HB], HB' as [_ HB']. exact (IH HB b' E2 HB').
Qed.

Lemma judged_unique n f t p v v' : judged n f t p v -> judged n f t p v' -> v = v'.
Proof. apply first_reason_unique. Qed.

(** verdicts depend on the truth of the reasons only *)
Lemma first_reason_ext l l' v :
  Forall2 (fun a b : play_error * Prop => fst a = fst b /\ (snd a <-> snd b)) l l' -> first_reason l v -> first_reason l' v.
Proof.
  assert (K : forall l l', Forall2 (fun a b : play_error * Prop => fst a = fst b /\ (snd a <-> snd b)) l l' ->
    Forall (fun r => ~ snd r) l -> Forall (fun r => ~ snd r) l').
  { intros a b H. induction H as [|x y a b [_ H] _ IH]; intros F; [constructor|]. apply Forall_cons in F as [F1 F2].
    apply Forall_cons. split; [rewrite <- H; exact F1|apply IH, F2]. }
  intros H. destruct v as [|e]; cbn [first_reason]; [apply K, H|].
  intros (b & R & a & -> & HR & HB). apply Forall2_app_inv_l in H as (b' & a' & Hb & Ha & ->).
  apply Forall2_cons_inv_l in Ha as ([e' R'] & a'' & [He HR'] & _ & ->). cbn [fst snd] in *. subst e'.
  exists b', R', a''. split; [reflexivity|]. split; [apply HR', HR|apply (K b b' Hb HB)].
Qed.

(** accepting or refusing a further reason in front *)
Lemma first_reason_skip e (R : Prop) l v : ~ R -> first_reason l v -> first_reason ((e, R) :: l) v.
Proof.
  intros HR. destruct v as [|e']; cbn [first_reason].
  - intros H. apply Forall_cons. split; [exact HR|exact H].
  - intros (b & Q & a & -> & HQ & HB). exists ((e, R) :: b), Q, a. split; [reflexivity|]. split; [exact HQ|]. apply Forall_cons. split; [exact HR|exact HB].
Qed.
Lemma first_reason_hit e (R : Prop) l : R -> first_reason ((e, R) :: l) (Refused e).
Proof. intros HR. cbn [first_reason]. exists [], R, l. split; [reflexivity|]. split; [exact HR|constructor]. Qed.

Lemma in_seen (h : list goban) Q : Q ∈ List.map pos_of h <-> exists y, Q = pos_of y /\ y ∈ h.
Proof.
  rewrite elem_of_list_In, in_map_iff. split; intros (y & H); exists y; rewrite elem_of_list_In in *; intuition congruence.
Qed.

Section Checks.
  Context (dbg : bool) (n b w : nat) (g : game) (p : coord).
  Hypothesis HG : greach dbg n b w g.
  Hypothesis Hp : on n p.
  Let G := greach_inv _ _ _ _ _ HG.
  Let W := gi_wf _ _ _ _ G.
  Let Wh := gi_hist _ _ _ _ G.

  Theorem ko_exact c : position g p = None -> exists v, check_ko dbg g (p, c) = Ok v /\ (v = true <-> ko_banned n (table_of g) p).
  Proof using All.
    intros He. destruct (check_ko_ok dbg n g p c W Hp He) as (v & E & Hv). exists v. split; [exact E|]. rewrite Hv. unfold ko_banned, ko_shape. cbn [t_ko t_pos table_of]. reflexivity.
  Qed.

  Theorem superko_exact : position g p = None ->
    (check_super_ko dbg g (p, gm_turn g) = Panic /\ no_slot_left g) \/
    exists v, check_super_ko dbg g (p, gm_turn g) = Ok v /\ (v = true <-> superko_banned n (table_of g) p).
  Proof using All.
    intros He. destruct (check_super_ko_ok dbg n g p W Wh Hp He) as [F|(v & E & Hv)]; [left; exact F|right]. exists v. split; [exact E|]. rewrite Hv.
    unfold superko_banned, captures, ko_banned, repeats_seen. unfold ko_shape. cbn [t_ko t_pos t_seen t_turn table_of]. rewrite map_length.
    change (pos_of (gm_goban g)) with (position g).
    assert (EQ : (exists y0 R, y0 ∈ gm_history g /\ go_move false n (position g) p (gm_turn g) R /\ same_pos n R (pos_of y0)) <->
                 (exists R Q, go_move false n (position g) p (gm_turn g) R /\ Q ∈ List.map pos_of (gm_history g) /\ same_pos n R Q)).
    { split.
      - intros (y & R & Hy & HR & HS). exists R, (pos_of y). split; [exact HR|]. split; [apply in_seen; eauto|exact HS].
      - intros (R & Q & HR & HQ & HS). apply in_seen in HQ as (y & -> & Hy). eauto. }
    rewrite EQ. reflexivity.
  Qed.

  Theorem point_exact f :
    (check_point_by dbg g p f = Panic /\ no_slot_left g) \/
    exists v, check_point_by dbg g p f = Ok (error_of v) /\ first_reason (point_reasons n f (table_of g) p) v.
  Proof using All.
    unfold check_point_by. rewrite (get_color_pos n _ _ W Hp). cbn [bind]. unfold point_reasons. cbn [t_pos t_turn table_of].
    change (pos_of (gm_goban g)) with (position g). destruct (position g p) as [c|] eqn:He.
    { right. exists (Refused EPointNotEmpty). split; [reflexivity|]. apply first_reason_hit. discriminate. }
    assert (B1 : flag_contains f SUICIDE = no_suicide f) by exact (suicide_bit (mkRule (r_komi (gm_rule g)) f 0%N)).
    assert (B2 : flag_contains f KO = no_ko f) by exact (ko_bit (mkRule (r_komi (gm_rule g)) f 0%N)).
    assert (B3 : flag_contains f FILLEYE = no_fill_eye f) by exact (fill_eye_bit (mkRule (r_komi (gm_rule g)) f 0%N)).
    assert (B4 : flag_contains f SUPERKO = no_superko f) by exact (superko_bit (mkRule (r_komi (gm_rule g)) f 0%N)).
    rewrite B1, B2, B3, B4.
    assert (H1 : exists v, (if no_suicide f then check_suicide dbg g (p, gm_turn g) else Ok false) = Ok v /\
       (v = true <-> no_suicide f = true /\ suicidal n (position g) p (gm_turn g))).
    { destruct (no_suicide f); [|exists false; split; [reflexivity|split; [discriminate|intros [F _]; discriminate F]]].
      destruct (check_suicide_ok dbg n g p (gm_turn g) W Hp He) as (v & E & Hv). exists v. split; [exact E|]. rewrite Hv. split; [auto|intros [_ K]; exact K]. }
    destruct H1 as (v1 & E1 & H1). rewrite E1. cbn [bind].
    assert (K0 : ~ (None : option color) <> None) by (intros F; apply F; reflexivity).
    destruct v1.
    { right. exists (Refused ESuicide). split; [reflexivity|]. apply first_reason_skip; [exact K0|]. apply first_reason_hit, H1. reflexivity. }
    assert (H2 : exists v, (if no_ko f then check_ko dbg g (p, gm_turn g) else Ok false) = Ok v /\ (v = true <-> no_ko f = true /\ ko_banned n (table_of g) p)).
    { destruct (no_ko f); [|exists false; split; [reflexivity|split; [discriminate|intros [F _]; discriminate F]]].
      destruct (ko_exact (gm_turn g) He) as (v & E & Hv). exists v. split; [exact E|]. rewrite Hv. split; [auto|intros [_ K]; exact K]. }
    destruct H2 as (v2 & E2 & H2). rewrite E2. cbn [bind].
    assert (K1 : ~ (no_suicide f = true /\ suicidal n (position g) p (gm_turn g))) by (rewrite <- H1; discriminate).
    destruct v2.
    { right. exists (Refused EKo). split; [reflexivity|]. apply first_reason_skip; [exact K0|]. apply first_reason_skip; [exact K1|]. apply first_reason_hit, H2. reflexivity. }
    assert (H3 : exists v, (if no_fill_eye f then check_eye dbg g (p, gm_turn g) else Ok false) = Ok v /\
       (v = true <-> no_fill_eye f = true /\ eye_shape n (position g) (gm_turn g) p)).
    { destruct (no_fill_eye f); [|exists false; split; [reflexivity|split; [discriminate|intros [F _]; discriminate F]]].
      destruct (claim_eye_exact dbg n b w g p (gm_turn g) HG Hp) as (v & E & Hv). exists v. split; [exact E|]. rewrite Hv. split; [auto|intros [_ K]; exact K]. }
    destruct H3 as (v3 & E3 & H3). rewrite E3. cbn [bind].
    assert (K2 : ~ (no_ko f = true /\ ko_banned n (table_of g) p)) by (rewrite <- H2; discriminate).
    destruct v3.
    { right. exists (Refused EFillEye). split; [reflexivity|]. do 3 (apply first_reason_skip; [assumption|]). apply first_reason_hit, H3. reflexivity. }
    assert (H4 : (if no_superko f then check_super_ko dbg g (p, gm_turn g) else Ok false) = Panic /\ no_slot_left g \/
       exists v, (if no_superko f then check_super_ko dbg g (p, gm_turn g) else Ok false) = Ok v /\ (v = true <-> no_superko f = true /\ superko_banned n (table_of g) p)).
    { destruct (no_superko f); [|right; exists false; split; [reflexivity|split; [discriminate|intros [F _]; discriminate F]]].
      destruct (superko_exact He) as [F|(v & E & Hv)]; [left; exact F|right]. exists v. split; [exact E|]. rewrite Hv. split; [auto|intros [_ K]; exact K]. }
    assert (K3 : ~ (no_fill_eye f = true /\ eye_shape n (position g) (gm_turn g) p)) by (rewrite <- H3; discriminate).
    destruct H4 as [[E4 L]|(v4 & E4 & H4)]; rewrite E4; cbn [bind]; [left; auto|right]. destruct v4.
    - exists (Refused EKo). split; [reflexivity|]. do 4 (apply first_reason_skip; [assumption|]). apply first_reason_hit, H4. reflexivity.
    - exists Accepted. split; [reflexivity|]. do 4 (apply first_reason_skip; [assumption|]). apply first_reason_skip; [rewrite <- H4; discriminate|]. constructor.
  Qed.
End Checks.

Theorem judged_ok dbg n b w g x y : greach dbg n b w g -> on n (x, y) ->
  (try_play dbg g (MPlay x y) = Panic /\ no_slot_left g) \/
  exists g' v, try_play dbg g (MPlay x y) = Ok (g', v) /\ judged n (flag_illegal (gm_rule g)) (table_of g) (x, y) v.
Proof.
  intros HG Hp. pose proof (greach_inv _ _ _ _ _ HG) as G. pose proof (gi_wf _ _ _ _ G) as W.
  unfold judged, reasons. destruct (decide (gm_passes g = 2%nat)) as [HP|HP].
  { right. exists g, (Refused EGamePaused). split; [apply paused_refuses, HP|]. apply first_reason_hit, HP. }
  rewrite (try_play_point dbg n g x y W Hp HP). unfold check_point.
  destruct (point_exact dbg n b w g (x, y) HG Hp (flag_illegal (gm_rule g))) as [[E L]|(v & E & HF)]; [left; rewrite E; auto|].
  rewrite E. cbn [bind]. destruct v as [|e]; cbn [error_of].
  - assert (He : position g (x, y) = None).
    { apply Forall_cons in HF as [HF _]. cbn [snd fst t_pos table_of] in HF. destruct (position g (x, y)); [exfalso; apply HF; discriminate|reflexivity]. }
    destruct (play_spec dbg n b w g x y G Hp He) as [[F [L _]]|(g' & Eg & _)]; [left; rewrite F; auto|right]. rewrite Eg. cbn [bind].
    exists g', Accepted. split; [reflexivity|]. apply first_reason_skip; [exact HP|exact HF].
  - right. exists g, (Refused e). split; [reflexivity|]. apply first_reason_skip; [exact HP|exact HF].
Qed.

Theorem verdict_exact dbg n b w g x y v : greach dbg n b w g -> on n (x, y) -> ~ no_slot_left g ->
  ((exists g', try_play dbg g (MPlay x y) = Ok (g', v)) <-> judged n (flag_illegal (gm_rule g)) (table_of g) (x, y) v).
Proof.
  intros HG Hp HL. destruct (judged_ok dbg n b w g x y HG Hp) as [[_ F]|(g' & v' & E & HJ)]; [contradiction|]. split.
  - intros (g2 & E2). rewrite E in E2. injection E2 as <- <-. exact HJ.
  - intros HJ'. rewrite (judged_unique _ _ _ _ _ _ HJ' HJ). eauto.
Qed.

(** the point checks of every mask *)
Theorem check_exact dbg n b w g p f v : greach dbg n b w g -> on n p -> ~ no_slot_left g ->
  (check_point_by dbg g p f = Ok (error_of v) <-> first_reason (point_reasons n f (table_of g) p) v).
Proof.
  intros HG Hp HL. destruct (point_exact dbg n b w g p HG Hp f) as [[_ F]|(v' & E & HJ)]; [contradiction|]. rewrite E. split.
  - intros K. assert (v' = v) as ->; [|exact HJ]. destruct v, v'; cbn [error_of] in K; congruence.
  - intros HJ'. rewrite (first_reason_unique _ _ _ HJ' HJ). reflexivity.
Qed.

(** nothing but the shortage of group numbers makes [try_play] panic on the board *)
Theorem try_panic dbg n b w g x y : greach dbg n b w g -> on n (x, y) -> try_play dbg g (MPlay x y) = Panic -> no_slot_left g.
Proof. intros HG Hp E. destruct (judged_ok dbg n b w g x y HG Hp) as [[_ F]|(g' & v & E' & _)]; [exact F|congruence]. Qed.
