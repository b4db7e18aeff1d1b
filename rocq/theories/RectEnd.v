(** Superko on boards whose width divides their height. *)
From stdpp Require Import relations sorting.
From Verif Require Import MonadFacts Spec Game Builder BitsetFacts CoordFacts Struct Push Inv Remove Capture Bridge GameFacts RulesFacts KoFacts BoardFacts CheckFacts LegalFacts LegalsFacts ClaimFacts CaseFacts.
From Verif Require Import RectSpec RectReach RectCoord RectInv RectRemove RectCapture RectBridge RectGame RectReachFacts RectRules RectBoard RectCheck RectEye RectVerdict RectMoves RectKo RectLegal RectEndSpec EndFacts.
From Coq Require Import Lia.

Local Notation length := Datatypes.length.

Lemma rko_memory_repeats n g a b : rwf n (gm_goban g) -> ron n (a, b) -> position g (a, b) = None ->
  ~ rsuicidal n (position g) (a, b) (gm_turn g) -> rko_shape n (position g) (a, b) -> rko_memory n g (a, b) ->
  rcaptures n (position g) (a, b) (gm_turn g) /\ rrepeats_history n g (a, b).
Proof.
  intros W Hq He Hns Hsh (P0 & p & z & Hz & Hsz & Hp & He0 & HA0 & HC & Hot). pose proof (rwf_n n _ W) as Hn.
  destruct (rgo_move_exists false n (position g) (a, b) (gm_turn g) Hn Hq) as [R HR].
  assert (HRP : rsame_pos n R P0).
  { rewrite <- (opp_invol (gm_turn g)) in HR, Hns.
    apply (rko_forward n P0 _ p (a, b) (opp (gm_turn g)) Hn Hp He0 HC false R HA0 Hot Hns Hsh HR). }
  split; [|exists R, z; split; [exact HR|]; split; [exact Hz|eapply rsame_pos_trans; eassumption]].
  exists p. split; [exact Hp|].
  destruct (rtaken_dec n (put (position g) (a, b) (gm_turn g)) (a, b) (gm_turn g) p Hn Hp) as [T|T]; [exact T|exfalso].
  apply rgo_move_forbidden in HR. destruct (HR p Hp) as [_ K]. specialize (K T). rewrite (HRP p Hp), He0 in K.
  pose proof (rko_p n P0 _ p (opp (gm_turn g)) Hp HC) as Kp.
  unfold put in K. destruct (decide (p = (a, b))); [discriminate|]. fold (position g) in Kp. congruence.
Qed.

Theorem rsuperko_exact dbg n g a b :
  Nat.divide (snd n) (fst n) -> rlreach dbg n g -> forbids_superko (gm_rule g) = true -> forbids_suicide (gm_rule g) = true ->
  forbids_fill_eye (gm_rule g) = false -> ron n (a, b) -> (2 < length (gm_history g))%nat ->
  try_play dbg g (MPlay a b) <> Panic ->
  (try_play dbg g (MPlay a b) = Ok (g, Refused EKo) <->
   gm_passes g <> 2%nat /\ position g (a, b) = None /\ ~ rsuicidal n (position g) (a, b) (gm_turn g) /\
   rcaptures n (position g) (a, b) (gm_turn g) /\ rrepeats_history n g (a, b)).
Proof.
  intros Hd HL FK FS FE Hq Hlen HP. destruct (rlreach_inv dbg n g Hd HL) as [HA HKM].
  destruct (rlreach_greach dbg n g Hd HL) as (bb & ww & HG). pose proof (rgreach_inv _ _ _ _ _ Hd HG) as G.
  pose proof (rgi_wf _ _ _ _ G) as W. pose proof (rgi_hist _ _ _ _ G) as Wh. pose proof (rwf_n n _ W) as Hn.
  rewrite <- superko_bit in FK. rewrite <- suicide_bit in FS. rewrite <- fill_eye_bit in FE.
  split.
  - intros H. assert (Hps : gm_passes g <> 2%nat) by (intros E; rewrite (paused_refuses _ _ _ E) in H; discriminate).
    rewrite (rtry_play_point dbg n g a b W Hq Hps) in H. apply bind_ok in H as (e & Ec & H).
    destruct e as [e|]; [|apply bind_ok in H as (g' & _ & H); discriminate]. injection H as ->.
    unfold check_point in Ec. pose proof (rcontains_check Ec W Wh Hq) as (He & HS & HKO). specialize (HS FS).
    pose proof (rnot_suicidal dbg n g (a, b) W Hq He HS) as Hns.
    split; [exact Hps|]. split; [exact He|]. split; [exact Hns|].
    destruct HKO as [[_ HKO]|[_ HKO]].
    + destruct (rcheck_ko_ok dbg n g (a, b) (gm_turn g) W Hq He) as (v & Ev & Hv). rewrite HKO in Ev. injection Ev as <-.
      destruct (proj1 Hv eq_refl) as [Hkp Hsh]. apply rko_memory_repeats; auto.
    + destruct (rcheck_super_ko_ok dbg n g (a, b) W Wh Hq He) as [[E _]|(v & Ev & Hv)]; [congruence|].
      rewrite HKO in Ev. injection Ev as <-. destruct (proj1 Hv eq_refl) as (_ & Hc & [[H1 H2]|(z & R & H1 & H2 & H3)]).
      * apply rko_memory_repeats; auto.
      * split; [exact Hc|]. exists R, z. tauto.
  - intros (Hps & He & Hns & Hc & R & y & HR & Hy & Hs).
    rewrite (rtry_play_point dbg n g a b W Hq Hps) in HP |- *. unfold check_point in *.
    destruct (rcheck_point_by_ok dbg n g (a, b) (flag_illegal (gm_rule g)) W Wh Hq) as [[E _]|(e & E & HT)]; [rewrite E in HP; contradiction HP; reflexivity|].
    rewrite E. cbn [bind]. clear HP. destruct (rcheck_suicide_ok dbg n g (a, b) (gm_turn g) W Hq He) as (v & Ev & Hv).
    assert (v = false) as -> by (destruct v; [exfalso; apply Hns, Hv; reflexivity|reflexivity]).
    destruct e as [e|]; [destruct e; try reflexivity; exfalso|].
    all: try (destruct HT as (_ & _ & HT); congruence).
    all: try (destruct HT as (_ & _ & _ & HT & _); congruence).
    all: try contradiction.
    all: try (apply HT; exact He).
    + exfalso. destruct HT as (_ & _ & _ & _ & HT). specialize (HT FK).
      destruct (rcheck_super_ko_ok dbg n g (a, b) W Wh Hq He) as [[E' _]|(v & Ev' & Hv')]; [congruence|].
      rewrite HT in Ev'. injection Ev' as <-. enough (false = true) by discriminate. apply Hv'.
      split; [exact Hlen|]. split; [exact Hc|]. right. exists y, R. auto.
Qed.

(** the whole legality decision for the Chinese flags: which points are accepted *)
Theorem rchinese_legal dbg n g a b :
  Nat.divide (snd n) (fst n) -> rlreach dbg n g -> forbids_superko (gm_rule g) = true -> forbids_suicide (gm_rule g) = true ->
  forbids_fill_eye (gm_rule g) = false -> ron n (a, b) -> (2 < length (gm_history g))%nat ->
  try_play dbg g (MPlay a b) <> Panic ->
  ((exists g', try_play dbg g (MPlay a b) = Ok (g', Accepted)) <->
   gm_passes g <> 2%nat /\ position g (a, b) = None /\ ~ rsuicidal n (position g) (a, b) (gm_turn g) /\
   ~ (rcaptures n (position g) (a, b) (gm_turn g) /\ rrepeats_history n g (a, b))).
Proof.
  intros Hd HL FK FS FE Hq Hlen HP. pose proof (rsuperko_exact dbg n g a b Hd HL FK FS FE Hq Hlen HP) as HE.
  destruct (rlreach_greach dbg n g Hd HL) as (bb & ww & HG). pose proof (rgreach_inv _ _ _ _ _ Hd HG) as G.
  pose proof (rgi_wf _ _ _ _ G) as W. pose proof (rgi_hist _ _ _ _ G) as Wh.
  rewrite <- superko_bit in FK. rewrite <- suicide_bit in FS. rewrite <- fill_eye_bit in FE.
  split.
  - intros [g' E]. destruct (raccepted_empty dbg n g a b g' W Wh Hq E) as (He & Hps & _).
    destruct (raccepted_step dbg n bb ww g a b g' G Hq E) as (_ & Hs & _). rewrite FS in Hs.
    assert (Hns : ~ rsuicidal n (position g) (a, b) (gm_turn g)) by (destruct Hs; [discriminate|assumption]).
    split; [exact Hps|]. split; [exact He|]. split; [exact Hns|]. intros Hc.
    assert (try_play dbg g (MPlay a b) = Ok (g, Refused EKo)) by (apply HE; tauto). congruence.
  - intros (Hps & He & Hns & Hc). assert (HK : try_play dbg g (MPlay a b) <> Ok (g, Refused EKo)) by (intros K; apply HE in K; tauto). clear HE.
    rewrite (rtry_play_point dbg n g a b W Hq Hps) in HP, HK |- *. unfold check_point in *.
    destruct (rcheck_point_by_ok dbg n g (a, b) (flag_illegal (gm_rule g)) W Wh Hq) as [[E _]|(e & E & HT)]; [rewrite E in HP; contradiction HP; reflexivity|].
    rewrite E in HP, HK |- *. cbn [bind] in *. destruct (rcheck_suicide_ok dbg n g (a, b) (gm_turn g) W Hq He) as (v & Ev & Hv).
    assert (v = false) as -> by (destruct v; [exfalso; apply Hns, Hv; reflexivity|reflexivity]).
    destruct e as [e|]; [destruct e; exfalso|].
    all: try (apply HK; reflexivity).
    all: try (destruct HT as (_ & _ & HT); congruence).
    all: try (destruct HT as (_ & _ & _ & HT & _); congruence).
    all: try contradiction.
    all: try (apply HT; exact He).
    + destruct (rplay_spec dbg n bb ww g a b G Hq He) as [[F _]|(g' & -> & _)]; [rewrite F in HP; contradiction HP; reflexivity|]. eexists. reflexivity.
Qed.

Open Scope nat_scope.

Definition rpicture (n : size_t) (P : pos) : list (option color) := List.map P (rpoints n).

Lemma rpicture_same n P Q : rpicture n P = rpicture n Q <-> rsame_pos n P Q.
Proof.
  unfold rpicture. split.
  - intros H p Hp. assert (K : forall l, p ∈ l -> List.map P l = List.map Q l -> P p = Q p).
    { induction l as [|a l IH]; intros Hin E; [apply elem_of_nil in Hin; destruct Hin|]. cbn in E. injection E as E1 E2.
      apply elem_of_cons in Hin as [->|Hin]; [exact E1|apply IH; assumption]. }
    apply (K (rpoints n)); [apply elem_of_rpoints, Hp|exact H].
  - intros H. apply List.map_ext_in. intros p Hp. apply H. apply elem_of_rpoints, elem_of_list_In, Hp.
Qed.

Lemma rpicture_in n P : rpicture n P ∈ vectors (fst n * snd n).
Proof. rewrite <- (rpoints_length n). unfold rpicture. rewrite <- (List.map_length P (rpoints n)). apply vectors_all. Qed.

(** positions that were seen: now or before a stone move *)
Definition rseen (n : size_t) (g : game) : list (list (option color)) :=
  rpicture n (position g) :: List.map (fun y => rpicture n (pos_of y)) (gm_history g).

Lemma rseen_history n g P : rpicture n P ∈ List.map (fun y => rpicture n (pos_of y)) (gm_history g) <-> exists y, y ∈ gm_history g /\ rsame_pos n P (pos_of y).
Proof.
  rewrite elem_of_list_In, List.in_map_iff. split.
  - intros (y & E & Hy). exists y. split; [apply elem_of_list_In, Hy|]. apply rpicture_same. congruence.
  - intros (y & Hy & S). exists y. split; [symmetry; apply rpicture_same, S|apply elem_of_list_In, Hy].
Qed.

Definition runseen (n : size_t) (g : game) : nat := length (filter (fun v => v ∉ rseen n g) (vectors (fst n * snd n))).

Definition rstones (n : size_t) (P : pos) : nat := rcount n P Black + rcount n P White.

Lemma rstones_le n P : rstones n P <= fst n * snd n.
Proof.
  unfold rstones, rcount. rewrite <- (rpoints_length n). generalize (rpoints n). induction l as [|p l IH]; [cbn; lia|]. rewrite !filter_cons.
  destruct (decide (P p = Some Black)) as [B|B], (decide (P p = Some White)) as [W|W]; try congruence; cbn [Datatypes.length]; lia.
Qed.

Lemma rcount_same n P Q c : rsame_pos n P Q -> rcount n P c = rcount n Q c.
Proof.
  intros S. unfold rcount. f_equal. assert (H : forall p, p ∈ rpoints n -> P p = Q p) by (intros p Hp; apply S, elem_of_rpoints, Hp).
  revert H. generalize (rpoints n). induction l as [|p l IH]; intros H; [reflexivity|]. rewrite !filter_cons. rewrite (H p (elem_of_list_here _ _)).
  rewrite IH by (intros q Hq; apply H, elem_of_list_further, Hq). reflexivity.
Qed.

(** how far the game is from its end *)
Definition rleft_over (n : size_t) (g : game) : nat := runseen n g * (fst n * snd n + 1) + (fst n * snd n - rstones n (position g)).

Lemma rleft_bound n g : rleft_over n g < 3 ^ (fst n * snd n) * (fst n * snd n + 1).
Proof.
  assert (U : runseen n g < 3 ^ (fst n * snd n)).
  { unfold runseen. rewrite <- vectors_length.
    assert (E : forall l : list (list (option color)), length l = length (filter (fun _ => True) l)).
    { induction l as [|x l IH]; [reflexivity|]. rewrite filter_cons, decide_True by exact I. cbn. congruence. }
    rewrite (E (vectors (fst n * snd n))). apply (filter_lt _ _ _ (rpicture n (position g))); [auto|apply rpicture_in|exact I|].
    intros H. apply H. apply elem_of_list_here. }
  unfold rleft_over. nia.
Qed.

Lemma rleft_stone dbg n g x y g' : Nat.divide (snd n) (fst n) -> rlreach dbg n g -> forbids_superko (gm_rule g) = true -> forbids_suicide (gm_rule g) = true ->
  2 < length (gm_history g) -> ron n (x, y) -> try_play dbg g (MPlay x y) = Ok (g', Accepted) ->
  rleft_over n g' < rleft_over n g /\ 2 < length (gm_history g') /\ gm_rule g' = gm_rule g.
Proof.
  intros Hd HL HK HS HH Hp E. destruct (rlreach_greach _ _ _ Hd HL) as (b & w & HG). pose proof (rgreach_inv _ _ _ _ _ Hd HG) as G.
  pose proof (rwf_n _ _ (rgi_wf _ _ _ _ G)) as N19.
  destruct (raccepted_step _ _ _ _ _ _ _ _ G Hp E) as (He & Hs & Ep & M).
  rewrite suicide_bit in Hs, M. rewrite HS in Hs, M. cbn [negb] in Hs, M. destruct Hs as [Hs|Hs]; [discriminate|].
  change (pos_of (gm_goban g)) with (position g) in *. change (pos_of (gm_goban g')) with (position g') in *.
  (* history *)
  destruct (rhistory_insert_spec n _ _ (rgi_hist _ _ _ _ G) (rgi_wf _ _ _ _ G)) as (h' & Eh & _ & Hh).
  assert (T : gm_rule g' = gm_rule g /\ gm_history g' = h').
  { cbn in Ep. rewrite Eh in Ep. cbn in Ep.
    destruct (push_wth_feedback _ _ _ _) as [[[gb dead] added]| |]; try discriminate. cbn in Ep.
    destruct (game_remove_captured_stones _ _ _ _ _ _) as [[[gb' pris] ko]| |]; try discriminate. cbn in Ep.
    injection Ep as <-. auto. }
  destruct T as [R T]. change (pos_of (gm_goban g)) with (position g) in Hh.
  assert (S1 : forall v, v ∈ rseen n g -> v ∈ List.map (fun y => rpicture n (pos_of y)) (gm_history g')).
  { intros v Hv. unfold rseen in Hv. rewrite T. apply elem_of_cons in Hv. destruct Hv as [->|Hv].
    - destruct Hh as [[[z [Hz Sz]] ->]|[_ ->]].
      + rewrite (rseen_history n g). eauto.
      + rewrite List.map_app. apply elem_of_app. right. apply elem_of_list_here.
    - destruct Hh as [[_ ->]|[_ ->]]; [exact Hv|]. rewrite List.map_app. apply elem_of_app. auto. }
  assert (S2 : forall v, v ∉ rseen n g' -> v ∉ rseen n g).
  { intros v Hv Hv'. apply Hv. unfold rseen. apply elem_of_cons. right. apply S1, Hv'. }
  split; [|split; [rewrite T; destruct Hh as [[_ ->]|[_ ->]]; [exact HH|rewrite app_length; lia]|exact R]].
  set (P := position g) in *. set (c := gm_turn g) in *. set (p := (x, y)) in *.
  destruct M as (Q & C1 & C2).
  assert (SQ : rsame_pos n (position g') Q) by (intros q Hq; destruct (C2 q Hq) as [_ B]; apply B; intros [F _]; discriminate).
  assert (Hpp : position g' p = Some c).
  { rewrite (SQ p Hp). destruct (C1 p Hp) as [_ B]. rewrite B.
    - unfold put. rewrite decide_True; reflexivity.
    - intros F. apply rtaken_color in F. unfold put in F. rewrite decide_True in F by reflexivity. injection F as F. destruct c; discriminate. }
  pose proof (rstones_le n (position g')) as L1. pose proof (rstones_le n P) as L2.
  destruct (rpoints_ex_dec n (fun q => rtaken n (put P p c) p c q)) as [Ca|Nc].
  { intros q Hq. apply rtaken_dec; [exact N19|exact Hq]. }
  - (* a capture: the new position was never rseen *)
    assert (NS : rpicture n (position g') ∉ rseen n g).
    { intros F. unfold rseen in F. apply elem_of_cons in F. destruct F as [F|F].
      - apply rpicture_same in F. specialize (F p Hp). fold P in F. congruence.
      - apply rseen_history in F. destruct F as (z & Hz & Sz).
        rewrite <- superko_bit in HK.
        exact (rsuperko_capturing dbg n g x y g' Hd HL HK Hp E HH Ca z Hz Sz). }
    assert (U : runseen n g' < runseen n g).
    { unfold runseen. apply (filter_lt _ _ _ (rpicture n (position g'))); [exact S2|apply rpicture_in|exact NS|].
      intros F. apply F. apply elem_of_list_here. }
    unfold rleft_over. fold P. nia.
  - (* no capture: one more stone *)
    assert (U : runseen n g' <= runseen n g) by (unfold runseen; apply filter_le; exact S2).
    assert (SP : rsame_pos n (position g') (put P p c)).
    { intros q Hq. rewrite (SQ q Hq). destruct (C1 q Hq) as [_ B]. apply B, Nc, Hq. }
    assert (ST : rstones n (position g') = S (rstones n P)).
    { unfold rstones. rewrite !(rcount_same n _ _ _ SP), !rcount_put by assumption. destruct c; repeat case_decide; try discriminate; try congruence; lia. }
    unfold rleft_over. fold P. nia.
Qed.

Theorem rsuperko_games_end dbg n k g g' : Nat.divide (snd n) (fst n) -> rlreach dbg n g -> forbids_superko (gm_rule g) = true -> forbids_suicide (gm_rule g) = true ->
  2 < length (gm_history g) -> rstone_run dbg n k g g' -> k < 3 ^ (fst n * snd n) * (fst n * snd n + 1).
Proof.
  intros Hd HL HK HS HH H. enough (L : k <= rleft_over n g) by (pose proof (rleft_bound n g); lia).
  revert HL HK HS HH. induction H as [g|k g x y g1 g2 Hp E _ IH|k g m e g1 g2 E _ IH|k g g1 g2 E _ IH|k g c g1 g2 E _ IH|k g g2 _ IH|k g z g2 _ IH];
    intros HL HK HS HH.
  - lia.
  - destruct (rleft_stone _ _ _ _ _ _ Hd HL HK HS HH Hp E) as (L1 & L2 & R). rewrite R in IH.
    specialize (IH (rl_play _ _ _ _ _ _ HL Hp E) HK HS L2). lia.
  - rewrite (refused_unchanged _ _ _ _ _ E) in IH. auto.
  - pose proof (rl_pass _ _ _ _ HL E) as HL1. destruct (try_play_inv _ _ _ _ _ E) as [(e & F & _)|(_ & _ & Ep)]; [discriminate|].
    cbn in Ep. destruct (assert_ _) as [[]| |]; try discriminate. injection Ep as <-. exact (IH HL1 HK HS HH).
  - pose proof (rl_resign _ _ _ _ _ HL E) as HL1. destruct (try_play_inv _ _ _ _ _ E) as [(e & F & _)|(_ & _ & Ep)]; [discriminate|].
    cbn in Ep. injection Ep as <-. exact (IH HL1 HK HS HH).
  - exact (IH (rl_resume _ _ _ HL) HK HS HH).
  - exact (IH (rl_komi _ _ _ _ HL) HK HS HH).
Qed.
