(** The checks decide as [RectVerdictSpec.v] says, on boards whose width divides
    their height. *)
From stdpp Require Import relations sorting.
From Verif Require Import VerdictSpec PlayoutSpec.
From Verif Require Import MonadFacts Struct Push Inv Bridge GameFacts RulesFacts KoFacts BoardFacts CheckFacts EyeFacts EyeExact LegalFacts LegalsFacts ClaimFacts VerdictFacts.
From Verif Require Import RectVerdictSpec RectSpec RectReach RectCoord RectInv RectBridge RectGame RectReachFacts RectRules RectBoard RectCheck RectEye.
From Coq Require Import Lia.

(** [try_play] on a point of the board *)
Lemma rtry_play_point dbg n g x y : rwf n (gm_goban g) -> ron n (x, y) -> gm_passes g <> 2%nat ->
  try_play dbg g (MPlay x y) =
  let! e := check_point dbg g (x, y) in
  match e with
  | Some e => Ok (g, Refused e)
  | None => let! g' := play dbg g (MPlay x y) in Ok (g', Accepted)
  end.
Proof.
  intros W Hp Hps. unfold try_play. destruct (Nat.eqb_spec (gm_passes g) 2) as [|_]; [contradiction|].
  rewrite (rget_color_pos n _ _ W Hp). cbn [bind]. destruct (pos_of (gm_goban g) (x, y)) as [c|] eqn:E; cbn [mcolor_eqb negb]; [|reflexivity].
  unfold check_point, check_point_by. rewrite (rget_color_pos n _ _ W Hp), E. reflexivity.
Qed.

Lemma rjudged_unique n f t p v v' : rjudged n f t p v -> rjudged n f t p v' -> v = v'.
Proof. apply first_reason_unique. Qed.

Section Checks.
  Context (dbg : bool) (n : size_t) (b w : nat) (g : game) (p : coord).
  Hypothesis Hd : Nat.divide (snd n) (fst n).
  Hypothesis HG : rgreach dbg n b w g.
  Hypothesis Hp : ron n p.
  Let G := rgreach_inv _ _ _ _ _ Hd HG.
  Let W := rgi_wf _ _ _ _ G.
  Let Wh := rgi_hist _ _ _ _ G.

  Theorem rko_exact c : position g p = None -> exists v, check_ko dbg g (p, c) = Ok v /\ (v = true <-> rko_banned n (table_of g) p).
  Proof using All.
    intros He. destruct (rcheck_ko_ok dbg n g p c W Hp He) as (v & E & Hv). exists v. split; [exact E|]. rewrite Hv. unfold rko_banned, rko_shape. cbn [t_ko t_pos table_of]. reflexivity.
  Qed.

  Theorem rsuperko_exact : position g p = None ->
    (check_super_ko dbg g (p, gm_turn g) = Panic /\ no_slot_left g) \/
    exists v, check_super_ko dbg g (p, gm_turn g) = Ok v /\ (v = true <-> rsuperko_banned n (table_of g) p).
  Proof using All.
    intros He. destruct (rcheck_super_ko_ok dbg n g p W Wh Hp He) as [F|(v & E & Hv)]; [left; exact F|right]. exists v. split; [exact E|]. rewrite Hv.
    unfold rsuperko_banned, rcaptures, rko_banned, rrepeats_seen. unfold rko_shape. cbn [t_ko t_pos t_seen t_turn table_of]. rewrite map_length.
    change (pos_of (gm_goban g)) with (position g).
    assert (EQ : (exists y0 R, y0 ∈ gm_history g /\ rgo_move false n (position g) p (gm_turn g) R /\ rsame_pos n R (pos_of y0)) <->
                 (exists R Q, rgo_move false n (position g) p (gm_turn g) R /\ Q ∈ List.map pos_of (gm_history g) /\ rsame_pos n R Q)).
    { split.
      - intros (y & R & Hy & HR & HS). exists R, (pos_of y). split; [exact HR|]. split; [apply in_seen; eauto|exact HS].
      - intros (R & Q & HR & HQ & HS). apply in_seen in HQ as (y & -> & Hy). eauto. }
    rewrite EQ. reflexivity.
  Qed.

  Theorem rpoint_exact f :
    (check_point_by dbg g p f = Panic /\ no_slot_left g) \/
    exists v, check_point_by dbg g p f = Ok (error_of v) /\ first_reason (rpoint_reasons n f (table_of g) p) v.
  Proof using All.
    unfold check_point_by. rewrite (rget_color_pos n _ _ W Hp). cbn [bind]. unfold rpoint_reasons. cbn [t_pos t_turn table_of].
    change (pos_of (gm_goban g)) with (position g). destruct (position g p) as [c|] eqn:He.
    { right. exists (Refused EPointNotEmpty). split; [reflexivity|]. apply first_reason_hit. discriminate. }
    assert (B1 : flag_contains f SUICIDE = no_suicide f) by exact (suicide_bit (mkRule (r_komi (gm_rule g)) f 0%N)).
    assert (B2 : flag_contains f KO = no_ko f) by exact (ko_bit (mkRule (r_komi (gm_rule g)) f 0%N)).
    assert (B3 : flag_contains f FILLEYE = no_fill_eye f) by exact (fill_eye_bit (mkRule (r_komi (gm_rule g)) f 0%N)).
    assert (B4 : flag_contains f SUPERKO = no_superko f) by exact (superko_bit (mkRule (r_komi (gm_rule g)) f 0%N)).
    rewrite B1, B2, B3, B4.
    assert (H1 : exists v, (if no_suicide f then check_suicide dbg g (p, gm_turn g) else Ok false) = Ok v /\
       (v = true <-> no_suicide f = true /\ rsuicidal n (position g) p (gm_turn g))).
    { destruct (no_suicide f); [|exists false; split; [reflexivity|split; [discriminate|intros [F _]; discriminate F]]].
      destruct (rcheck_suicide_ok dbg n g p (gm_turn g) W Hp He) as (v & E & Hv). exists v. split; [exact E|]. rewrite Hv. split; [auto|intros [_ K]; exact K]. }
    destruct H1 as (v1 & E1 & H1). rewrite E1. cbn [bind].
    assert (K0 : ~ (None : option color) <> None) by (intros F; apply F; reflexivity).
    destruct v1.
    { right. exists (Refused ESuicide). split; [reflexivity|]. apply first_reason_skip; [exact K0|]. apply first_reason_hit, H1. reflexivity. }
    assert (H2 : exists v, (if no_ko f then check_ko dbg g (p, gm_turn g) else Ok false) = Ok v /\ (v = true <-> no_ko f = true /\ rko_banned n (table_of g) p)).
    { destruct (no_ko f); [|exists false; split; [reflexivity|split; [discriminate|intros [F _]; discriminate F]]].
      destruct (rko_exact (gm_turn g) He) as (v & E & Hv). exists v. split; [exact E|]. rewrite Hv. split; [auto|intros [_ K]; exact K]. }
    destruct H2 as (v2 & E2 & H2). rewrite E2. cbn [bind].
    assert (K1 : ~ (no_suicide f = true /\ rsuicidal n (position g) p (gm_turn g))) by (rewrite <- H1; discriminate).
    destruct v2.
    { right. exists (Refused EKo). split; [reflexivity|]. apply first_reason_skip; [exact K0|]. apply first_reason_skip; [exact K1|]. apply first_reason_hit, H2. reflexivity. }
    assert (H3 : exists v, (if no_fill_eye f then check_eye dbg g (p, gm_turn g) else Ok false) = Ok v /\
       (v = true <-> no_fill_eye f = true /\ reye_shape n (position g) (gm_turn g) p)).
    { destruct (no_fill_eye f); [|exists false; split; [reflexivity|split; [discriminate|intros [F _]; discriminate F]]].
      exists (reye n (position g) (gm_turn g) p). split; [exact (rcheck_eye_ok dbg n g p (gm_turn g) W Hp)|].
      rewrite (reye_iff n (position g) (gm_turn g) (rwf_n n _ W) p Hp). split; [auto|intros [_ K]; exact K]. }
    destruct H3 as (v3 & E3 & H3). rewrite E3. cbn [bind].
    assert (K2 : ~ (no_ko f = true /\ rko_banned n (table_of g) p)) by (rewrite <- H2; discriminate).
    destruct v3.
    { right. exists (Refused EFillEye). split; [reflexivity|]. do 3 (apply first_reason_skip; [assumption|]). apply first_reason_hit, H3. reflexivity. }
    assert (H4 : (if no_superko f then check_super_ko dbg g (p, gm_turn g) else Ok false) = Panic /\ no_slot_left g \/
       exists v, (if no_superko f then check_super_ko dbg g (p, gm_turn g) else Ok false) = Ok v /\ (v = true <-> no_superko f = true /\ rsuperko_banned n (table_of g) p)).
    { destruct (no_superko f); [|right; exists false; split; [reflexivity|split; [discriminate|intros [F _]; discriminate F]]].
      destruct (rsuperko_exact He) as [F|(v & E & Hv)]; [left; exact F|right]. exists v. split; [exact E|]. rewrite Hv. split; [auto|intros [_ K]; exact K]. }
    assert (K3 : ~ (no_fill_eye f = true /\ reye_shape n (position g) (gm_turn g) p)) by (rewrite <- H3; discriminate).
    destruct H4 as [[E4 L]|(v4 & E4 & H4)]; rewrite E4; cbn [bind]; [left; auto|right]. destruct v4.
    - exists (Refused EKo). split; [reflexivity|]. do 4 (apply first_reason_skip; [assumption|]). apply first_reason_hit, H4. reflexivity.
    - exists Accepted. split; [reflexivity|]. do 4 (apply first_reason_skip; [assumption|]). apply first_reason_skip; [rewrite <- H4; discriminate|]. constructor.
  Qed.
End Checks.

Theorem rjudged_ok dbg n b w g x y : Nat.divide (snd n) (fst n) -> rgreach dbg n b w g -> ron n (x, y) ->
  (try_play dbg g (MPlay x y) = Panic /\ no_slot_left g) \/
  exists g' v, try_play dbg g (MPlay x y) = Ok (g', v) /\ rjudged n (flag_illegal (gm_rule g)) (table_of g) (x, y) v.
Proof.
  intros Hd HG Hp. pose proof (rgreach_inv _ _ _ _ _ Hd HG) as G. pose proof (rgi_wf _ _ _ _ G) as W.
  unfold rjudged, rreasons. destruct (decide (gm_passes g = 2%nat)) as [HP|HP].
  { right. exists g, (Refused EGamePaused). split; [apply paused_refuses, HP|]. apply first_reason_hit, HP. }
  rewrite (rtry_play_point dbg n g x y W Hp HP). unfold check_point.
  destruct (rpoint_exact dbg n b w g (x, y) Hd HG Hp (flag_illegal (gm_rule g))) as [[E L]|(v & E & HF)]; [left; rewrite E; auto|].
  rewrite E. cbn [bind]. destruct v as [|e]; cbn [error_of].
  - assert (He : position g (x, y) = None).
    { apply Forall_cons in HF as [HF _]. cbn [snd fst t_pos table_of] in HF. destruct (position g (x, y)); [exfalso; apply HF; discriminate|reflexivity]. }
    destruct (rplay_spec dbg n b w g x y G Hp He) as [[F [L _]]|(g' & Eg & _)]; [left; rewrite F; auto|right]. rewrite Eg. cbn [bind].
    exists g', Accepted. split; [reflexivity|]. apply first_reason_skip; [exact HP|exact HF].
  - right. exists g, (Refused e). split; [reflexivity|]. apply first_reason_skip; [exact HP|exact HF].
Qed.

Theorem rverdict_exact dbg n b w g x y v : Nat.divide (snd n) (fst n) -> rgreach dbg n b w g -> ron n (x, y) -> ~ no_slot_left g ->
  ((exists g', try_play dbg g (MPlay x y) = Ok (g', v)) <-> rjudged n (flag_illegal (gm_rule g)) (table_of g) (x, y) v).
Proof.
  intros Hd HG Hp HL. destruct (rjudged_ok dbg n b w g x y Hd HG Hp) as [[_ F]|(g' & v' & E & HJ)]; [contradiction|]. split.
  - intros (g2 & E2). rewrite E in E2. injection E2 as <- <-. exact HJ.
  - intros HJ'. rewrite (rjudged_unique _ _ _ _ _ _ HJ' HJ). eauto.
Qed.

(** the point checks of every mask *)
Theorem rcheck_exact dbg n b w g p f v : Nat.divide (snd n) (fst n) -> rgreach dbg n b w g -> ron n p -> ~ no_slot_left g ->
  (check_point_by dbg g p f = Ok (error_of v) <-> first_reason (rpoint_reasons n f (table_of g) p) v).
Proof.
  intros Hd HG Hp HL. destruct (rpoint_exact dbg n b w g p Hd HG Hp f) as [[_ F]|(v' & E & HJ)]; [contradiction|]. rewrite E. split.
  - intros K. assert (v' = v) as ->; [|exact HJ]. destruct v, v'; cbn [error_of] in K; congruence.
  - intros HJ'. rewrite (first_reason_unique _ _ _ HJ' HJ). reflexivity.
Qed.

(** nothing but the shortage of group numbers makes [try_play] panic on the board *)
Theorem rtry_panic dbg n b w g x y : Nat.divide (snd n) (fst n) -> rgreach dbg n b w g -> ron n (x, y) -> try_play dbg g (MPlay x y) = Panic -> no_slot_left g.
Proof. intros Hd HG Hp E. destruct (rjudged_ok dbg n b w g x y Hd HG Hp) as [[_ F]|(g' & v & E' & _)]; [exact F|congruence]. Qed.
