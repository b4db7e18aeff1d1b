(** What the superko test refuses, exactly. *)
From Verif Require Import Spec Observe Struct Push Inv Remove Capture Bridge MonadFacts GameFacts RulesFacts KoFacts BoardFacts CheckFacts EyeFacts LegalFacts LegalsFacts ClaimFacts.
From Coq Require Import Lia.

Local Notation length := Datatypes.length.

Lemma ko_memory_repeats n g a b : wf n (gm_goban g) -> on n (a, b) -> position g (a, b) = None ->
  ~ suicidal n (position g) (a, b) (gm_turn g) -> ko_shape n (position g) (a, b) -> ko_memory n g (a, b) ->
  captures n (position g) (a, b) (gm_turn g) /\ repeats_history n g (a, b).
Proof.
  intros W Hq He Hns Hsh (P0 & p & z & Hz & Hsz & Hp & He0 & HA0 & HC & Hot). pose proof (wf_n n _ W) as Hn.
  destruct (go_move_exists false n (position g) (a, b) (gm_turn g) ltac:(lia) Hq) as [R HR].
  assert (HRP : same_pos n R P0).
  { rewrite <- (opp_invol (gm_turn g)) in HR, Hns.
    apply (ko_forward n P0 _ p (a, b) (opp (gm_turn g)) ltac:(lia) Hp He0 HC false R HA0 Hot Hns Hsh HR). }
  split; [|exists R, z; split; [exact HR|]; split; [exact Hz|eapply same_pos_trans; eassumption]].
  exists p. split; [exact Hp|].
  destruct (taken_dec n (put (position g) (a, b) (gm_turn g)) (a, b) (gm_turn g) p ltac:(lia) Hp) as [T|T]; [exact T|exfalso].
  apply go_move_forbidden in HR. destruct (HR p Hp) as [_ K]. specialize (K T). rewrite (HRP p Hp), He0 in K.
  pose proof (ko_p n P0 _ p (opp (gm_turn g)) Hp HC) as Kp.
  unfold put in K. destruct (decide (p = (a, b))); [discriminate|]. fold (position g) in Kp. congruence.
Qed.

Theorem superko_exact dbg n g a b :
  lreach dbg n g -> forbids_superko (gm_rule g) = true -> forbids_suicide (gm_rule g) = true ->
  forbids_fill_eye (gm_rule g) = false -> on n (a, b) -> (2 < length (gm_history g))%nat ->
  try_play dbg g (MPlay a b) <> Panic ->
  (try_play dbg g (MPlay a b) = Ok (g, Refused EKo) <->
   gm_passes g <> 2%nat /\ position g (a, b) = None /\ ~ suicidal n (position g) (a, b) (gm_turn g) /\
   captures n (position g) (a, b) (gm_turn g) /\ repeats_history n g (a, b)).
Proof.
  intros HL FK FS FE Hq Hlen HP. destruct (lreach_inv dbg n g HL) as [HA HKM].
  destruct (lreach_greach dbg n g HL) as (bb & ww & HG). pose proof (greach_inv _ _ _ _ _ HG) as G.
  pose proof (gi_wf _ _ _ _ G) as W. pose proof (gi_hist _ _ _ _ G) as Wh. pose proof (wf_n n _ W) as Hn.
  rewrite <- superko_bit in FK. rewrite <- suicide_bit in FS. rewrite <- fill_eye_bit in FE.
  split.
  - intros H. assert (Hps : gm_passes g <> 2%nat) by (intros E; rewrite (paused_refuses _ _ _ E) in H; discriminate).
    rewrite (try_play_point dbg n g a b W Hq Hps) in H. apply bind_ok in H as (e & Ec & H).
    destruct e as [e|]; [|apply bind_ok in H as (g' & _ & H); discriminate]. injection H as ->.
    unfold check_point in Ec. pose proof (contains_check Ec W Wh Hq) as (He & HS & HKO). specialize (HS FS).
    pose proof (not_suicidal dbg n g (a, b) W Hq He HS) as Hns.
    split; [exact Hps|]. split; [exact He|]. split; [exact Hns|].
    destruct HKO as [[_ HKO]|[_ HKO]].
    + destruct (check_ko_ok dbg n g (a, b) (gm_turn g) W Hq He) as (v & Ev & Hv). rewrite HKO in Ev. injection Ev as <-.
      destruct (proj1 Hv eq_refl) as [Hkp Hsh]. apply ko_memory_repeats; auto.
    + destruct (check_super_ko_ok dbg n g (a, b) W Wh Hq He) as [[E _]|(v & Ev & Hv)]; [congruence|].
      rewrite HKO in Ev. injection Ev as <-. destruct (proj1 Hv eq_refl) as (_ & Hc & [[H1 H2]|(z & R & H1 & H2 & H3)]).
      * apply ko_memory_repeats; auto.
      * split; [exact Hc|]. exists R, z. tauto.
  - intros (Hps & He & Hns & Hc & R & y & HR & Hy & Hs).
    rewrite (try_play_point dbg n g a b W Hq Hps) in HP |- *. unfold check_point in *.
    destruct (check_point_by_ok dbg n g (a, b) (flag_illegal (gm_rule g)) W Wh Hq) as [[E _]|(e & E & HT)]; [rewrite E in HP; contradiction HP; reflexivity|].
    rewrite E. cbn [bind]. clear HP. destruct (check_suicide_ok dbg n g (a, b) (gm_turn g) W Hq He) as (v & Ev & Hv).
    assert (v = false) as -> by (destruct v; [exfalso; apply Hns, Hv; reflexivity|reflexivity]).
    destruct e as [e|]; [destruct e; try reflexivity; exfalso|].
    all: try (destruct HT as (_ & _ & HT); congruence).
    all: try (destruct HT as (_ & _ & _ & HT & _); congruence).
    all: try contradiction.
    all: try (apply HT; exact He).
    + exfalso. destruct HT as (_ & _ & _ & _ & HT). specialize (HT FK).
      destruct (check_super_ko_ok dbg n g (a, b) W Wh Hq He) as [[E' _]|(v & Ev' & Hv')]; [congruence|].
      rewrite HT in Ev'. injection Ev' as <-. enough (false = true) by discriminate. apply Hv'.
      split; [exact Hlen|]. split; [exact Hc|]. right. exists y, R. auto.
Qed.

(** the whole legality decision for the Chinese flags: which points are accepted *)
Theorem chinese_legal dbg n g a b :
  lreach dbg n g -> forbids_superko (gm_rule g) = true -> forbids_suicide (gm_rule g) = true ->
  forbids_fill_eye (gm_rule g) = false -> on n (a, b) -> (2 < length (gm_history g))%nat ->
  try_play dbg g (MPlay a b) <> Panic ->
  ((exists g', try_play dbg g (MPlay a b) = Ok (g', Accepted)) <->
   gm_passes g <> 2%nat /\ position g (a, b) = None /\ ~ suicidal n (position g) (a, b) (gm_turn g) /\
   ~ (captures n (position g) (a, b) (gm_turn g) /\ repeats_history n g (a, b))).
Proof.
  intros HL FK FS FE Hq Hlen HP. pose proof (superko_exact dbg n g a b HL FK FS FE Hq Hlen HP) as HE.
  destruct (lreach_greach dbg n g HL) as (bb & ww & HG). pose proof (greach_inv _ _ _ _ _ HG) as G.
  pose proof (gi_wf _ _ _ _ G) as W. pose proof (gi_hist _ _ _ _ G) as Wh.
  rewrite <- superko_bit in FK. rewrite <- suicide_bit in FS. rewrite <- fill_eye_bit in FE.
  split.
  - intros [g' E]. destruct (accepted_empty dbg n g a b g' W Wh Hq E) as (He & Hps & _).
    destruct (accepted_step dbg n bb ww g a b g' G Hq E) as (_ & Hs & _). rewrite FS in Hs.
    assert (Hns : ~ suicidal n (position g) (a, b) (gm_turn g)) by (destruct Hs; [discriminate|assumption]).
    split; [exact Hps|]. split; [exact He|]. split; [exact Hns|]. intros Hc.
    assert (try_play dbg g (MPlay a b) = Ok (g, Refused EKo)) by (apply HE; tauto). congruence.
  - intros (Hps & He & Hns & Hc). assert (HK : try_play dbg g (MPlay a b) <> Ok (g, Refused EKo)) by (intros K; apply HE in K; tauto). clear HE.
    rewrite (try_play_point dbg n g a b W Hq Hps) in HP, HK |- *. unfold check_point in *.
    destruct (check_point_by_ok dbg n g (a, b) (flag_illegal (gm_rule g)) W Wh Hq) as [[E _]|(e & E & HT)]; [rewrite E in HP; contradiction HP; reflexivity|].
    rewrite E in HP, HK |- *. cbn [bind] in *. destruct (check_suicide_ok dbg n g (a, b) (gm_turn g) W Hq He) as (v & Ev & Hv).
    assert (v = false) as -> by (destruct v; [exfalso; apply Hns, Hv; reflexivity|reflexivity]).
    destruct e as [e|]; [destruct e; exfalso|].
    all: try (apply HK; reflexivity).
    all: try (destruct HT as (_ & _ & HT); congruence).
    all: try (destruct HT as (_ & _ & _ & HT & _); congruence).
    all: try contradiction.
    all: try (apply HT; exact He).
    + destruct (play_spec dbg n bb ww g a b G Hq He) as [[F _]|(g' & -> & _)]; [rewrite F in HP; contradiction HP; reflexivity|]. eexists. reflexivity.
Qed.
