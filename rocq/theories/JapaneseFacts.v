(** Which moves the Japanese flags accept, exactly. *)
From Verif Require Import Spec Observe Struct Push Inv Remove Capture Bridge MonadFacts GameFacts RulesFacts KoFacts BoardFacts CheckFacts EyeFacts LegalFacts LegalsFacts ClaimFacts.
From Coq Require Import Lia.

Local Notation length := Datatypes.length.

Lemma accepted_unless dbg n g a b :
  lreach dbg n g -> forbids_suicide (gm_rule g) = true -> forbids_fill_eye (gm_rule g) = false ->
  on n (a, b) -> try_play dbg g (MPlay a b) <> Panic ->
  ((exists g', try_play dbg g (MPlay a b) = Ok (g', Accepted)) <->
   gm_passes g <> 2%nat /\ position g (a, b) = None /\ ~ suicidal n (position g) (a, b) (gm_turn g) /\
   try_play dbg g (MPlay a b) <> Ok (g, Refused EKo)).
Proof.
  intros HL FS FE Hq HP.
  destruct (lreach_greach dbg n g HL) as (bb & ww & HG). pose proof (greach_inv _ _ _ _ _ HG) as G.
  pose proof (gi_wf _ _ _ _ G) as W. pose proof (gi_hist _ _ _ _ G) as Wh.
  rewrite <- suicide_bit in FS. rewrite <- fill_eye_bit in FE.
  split.
  - intros [g' E]. destruct (accepted_empty dbg n g a b g' W Wh Hq E) as (He & Hps & _).
    destruct (accepted_step dbg n bb ww g a b g' G Hq E) as (_ & Hs & _). rewrite FS in Hs.
    assert (Hns : ~ suicidal n (position g) (a, b) (gm_turn g)) by (destruct Hs; [discriminate|assumption]).
    split; [exact Hps|]. split; [exact He|]. split; [exact Hns|]. congruence.
  - intros (Hps & He & Hns & HK).
    rewrite (try_play_point dbg n g a b W Hq Hps) in HP, HK |- *. unfold check_point in *.
    destruct (check_point_by_ok dbg n g (a, b) (flag_illegal (gm_rule g)) W Wh Hq) as [[E _]|(e & E & HT)]; [rewrite E in HP; contradiction HP; reflexivity|].
    rewrite E in HP, HK |- *. cbn [bind] in *. destruct (check_suicide_ok dbg n g (a, b) (gm_turn g) W Hq He) as (v & Ev & Hv).
    assert (v = false) as -> by (destruct v; [exfalso; apply Hns, Hv; reflexivity|reflexivity]).
    destruct e as [e|]; [destruct e; exfalso|].
    all: try (apply HK; reflexivity).
    all: try (destruct HT as (_ & _ & HT); congruence).
    all: try (destruct HT as (_ & _ & _ & HT & _); congruence).
    all: try contradiction.
    all: try (apply HT; exact He).
    + destruct (play_spec dbg n bb ww g a b G Hq He) as [[F _]|(g' & -> & _)]; [rewrite F in HP; contradiction HP; reflexivity|]. eexists. reflexivity.
Qed.

Lemma accepted_stone dbg n g x y g' : lreach dbg n g -> on n (x, y) -> try_play dbg g (MPlay x y) = Ok (g', Accepted) ->
  gm_rule g' = gm_rule g /\ gm_passes g' = 0%nat.
Proof.
  intros HL Hp E. destruct (lreach_greach dbg n g HL) as (bb & ww & HG). pose proof (greach_inv _ _ _ _ _ HG) as G.
  pose proof (gi_wf _ _ _ _ G) as W. pose proof (gi_hist _ _ _ _ G) as Wh.
  destruct (accepted_empty dbg n g x y g' W Wh Hp E) as (He & Hps & _ & E').
  unfold play in E'. apply bind_ok in E' as (h & _ & E'). apply bind_ok in E' as ([[gb dead] added] & _ & E').
  apply bind_ok in E' as ([[gb' pris] ko] & _ & E'). injection E' as <-. split; reflexivity.
Qed.

(** just after a stone move *)
Theorem japanese_legal dbg n g0 x y g a b :
  lreach dbg n g0 -> forbids_ko (gm_rule g0) = true -> forbids_suicide (gm_rule g0) = true ->
  forbids_superko (gm_rule g0) = false -> forbids_fill_eye (gm_rule g0) = false ->
  on n (x, y) -> try_play dbg g0 (MPlay x y) = Ok (g, Accepted) -> on n (a, b) ->
  try_play dbg g (MPlay a b) <> Panic ->
  ((exists g', try_play dbg g (MPlay a b) = Ok (g', Accepted)) <->
   position g (a, b) = None /\ ~ suicidal n (position g) (a, b) (gm_turn g) /\
   ~ exists R, go_move false n (position g) (a, b) (gm_turn g) R /\ same_pos n R (position g0)).
Proof.
  intros HL FK FS FP FE Hp E Hq HP. destruct (accepted_stone dbg n g0 x y g HL Hp E) as [Hr Hps].
  assert (HL' : lreach dbg n g) by exact (lr_play _ _ _ _ _ _ HL Hp E).
  rewrite <- Hr in FS, FE. pose proof (accepted_unless dbg n g a b HL' FS FE Hq HP) as HA.
  pose proof (claim_simple_ko dbg n g0 x y g a b HL FK ltac:(rewrite <- Hr; exact FS) FP Hp E Hq) as HS.
  split.
  - intros H. apply HA in H as (_ & H1 & H2 & H3). split; [exact H1|]. split; [exact H2|]. intros H. apply H3, HS. auto.
  - intros (H1 & H2 & H3). apply HA. split; [lia|]. split; [exact H1|]. split; [exact H2|]. intros H. apply HS in H as [_ H]. contradiction.
Qed.

(** no ban is in force when the last move was a pass *)
Theorem no_ban_after_pass dbg n g0 g a b :
  lreach dbg n g0 -> forbids_suicide (gm_rule g0) = true ->
  forbids_superko (gm_rule g0) = false -> forbids_fill_eye (gm_rule g0) = false ->
  try_play dbg g0 MPass = Ok (g, Accepted) -> on n (a, b) -> try_play dbg g (MPlay a b) <> Panic ->
  ((exists g', try_play dbg g (MPlay a b) = Ok (g', Accepted)) <->
   gm_passes g0 = 0%nat /\ position g (a, b) = None /\ ~ suicidal n (position g) (a, b) (gm_turn g)).
Proof.
  intros HL FS FP FE E Hq HP. assert (HL' : lreach dbg n g) by exact (lr_pass _ _ _ _ HL E).
  assert (Hg : gm_rule g = gm_rule g0 /\ gm_passes g = S (gm_passes g0) /\ gm_ko_point g = None /\ gm_passes g0 <> 2%nat /\ (gm_passes g0 < 2)%nat).
  { unfold try_play in E. destruct (Nat.eqb_spec (gm_passes g0) 2) as [|Hne]; [discriminate|]. cbn [play] in E.
    destruct (Nat.ltb_spec (gm_passes g0) 2) as [Hlt|Hge]; cbn in E; [|discriminate]. injection E as <-. cbn. auto. }
  destruct Hg as (Hr & Hps & Hk & Hne & Hlt).
  rewrite <- Hr in FS, FE. pose proof (accepted_unless dbg n g a b HL' FS FE Hq HP) as HA.
  enough (position g (a, b) = None -> gm_passes g <> 2%nat -> try_play dbg g (MPlay a b) <> Ok (g, Refused EKo)) as K.
  { split.
    - intros H. apply HA in H as (H0 & H1 & H2 & _). split; [lia|]. auto.
    - intros (H0 & H1 & H2). apply HA. assert (gm_passes g <> 2%nat) by lia. auto. }
  intros He Hp2 F. destruct (lreach_greach dbg n g HL') as (bb & ww & HG). pose proof (greach_inv _ _ _ _ _ HG) as G.
  pose proof (gi_wf _ _ _ _ G) as W. pose proof (gi_hist _ _ _ _ G) as Wh.
  rewrite <- superko_bit in FP.
  rewrite (try_play_point dbg n g a b W Hq Hp2) in F. apply bind_ok in F as (e & Ec & F).
  destruct e as [e|]; [|apply bind_ok in F as (g' & _ & F); discriminate]. injection F as ->.
  unfold check_point in Ec. pose proof (contains_check Ec W Wh Hq) as (_ & _ & [[_ HKO]|[HKO _]]).
  - destruct (check_ko_ok dbg n g (a, b) (gm_turn g) W Hq He) as (v & Ev & Hv). rewrite HKO in Ev. injection Ev as <-.
    destruct (proj1 Hv eq_refl) as [Hkp _]. congruence.
  - rewrite Hr in HKO. congruence.
Qed.
