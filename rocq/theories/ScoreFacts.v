(** Scores and outcomes. *)
From stdpp Require Import relations.
From Verif Require Import MonadFacts Spec Observe ScoreSpec Game BitsetFacts CoordFacts Struct Push Inv Remove Capture Bridge GameFacts RulesFacts BoardFacts TerritoryFacts Float32Facts.
From Coq Require Import Lia ZArith.

Lemma card_unique D k k' : card D k -> card D k' -> k = k'.
Proof.
  intros (l & N1 & H1 & <-) (l' & N2 & H2 & <-). apply Permutation_length, NoDup_Permutation; [exact N1|exact N2|].
  intros p. rewrite H1, H2. reflexivity.
Qed.

Lemma card_bound n (D : coord -> Prop) k : (n <= 19)%nat -> (forall p, D p -> on n p) -> card D k -> (k <= 361)%nat.
Proof.
  intros Hn HD (l & Nd & Hl & <-). transitivity (length (points n)).
  - apply submseteq_length, NoDup_submseteq; [exact Nd|]. intros p Hp. apply elem_of_points, HD, Hl, Hp.
  - rewrite points_length. nia.
Qed.

Lemma count_bound n P c : (n <= 19)%nat -> (count n P c <= 361)%nat.
Proof.
  intros Hn. rewrite count_len. etransitivity; [apply lfilter_length|]. rewrite points_length. nia.
Qed.

Lemma calculate_territories_ok order dbg n g : wf n g -> (forall l, order l ≡ₚ l) ->
  exists tb tw, calculate_territories order dbg g = Ok (tb, tw) /\
    card (owned n (pos_of g) Black) tb /\ card (owned n (pos_of g) White) tw.
Proof.
  intros W Ho. destruct (territories_ok order dbg n g W Ho) as (bt & wt & E & NB & NW & HB & HW).
  unfold calculate_territories. rewrite E. cbn [bind]. eexists _, _. split; [reflexivity|].
  assert (H : forall (c : color) (l : list point), NoDup l -> (forall x, x ∈ l <-> snd x = None /\ owned n (pos_of g) c (fst x)) ->
            card (owned n (pos_of g) c) (length l)).
  { intros c l Nd Hl. exists (l.*1). split; [|split; [|apply fmap_length]].
    - apply NoDup_fmap_in; [|exact Nd]. intros [a x] [b y] Ha Hb. cbn [fst]. intros <-.
      apply Hl in Ha as [Ha _], Hb as [Hb _]. cbn [snd] in *. congruence.
    - intros p. rewrite elem_of_list_fmap. split.
      + intros (x & -> & Hx). apply Hl in Hx. tauto.
      + intros Hp. exists (p, None). split; [reflexivity|]. apply Hl. cbn. tauto. }
  split; apply H; assumption.
Qed.

Lemma flag_bit flags k f : f = (2 ^ k)%N -> flag_contains flags f = N.testbit flags k.
Proof.
  intros ->. unfold flag_contains. destruct (N.testbit flags k) eqn:E.
  - apply N.eqb_eq, N.bits_inj_iff. intros i. rewrite N.land_spec, N.pow2_bits_eqb.
    destruct (N.eqb_spec k i) as [<-|]; [rewrite E; reflexivity|apply andb_false_r].
  - apply N.eqb_neq. intros H. apply (f_equal (fun x => N.testbit x k)) in H.
    rewrite N.land_spec, N.pow2_bits_true, E in H. discriminate.
Qed.

Local Ltac sm := unfold small in *; lia.

Section Score.
  Variables (order : list point -> list point) (dbg : bool) (n : nat) (g : game) (k2 : Z).
  Hypothesis W : wf n (gm_goban g).
  Hypothesis Ho : forall l, order l ≡ₚ l.
  Hypothesis Hk : is_f32 (komi g) /\ halves (komi g) k2 /\ (Z.abs k2 <= 200000)%Z.
  Hypothesis HpB : (fst (gm_prisoners g) < 1000000)%N.
  Hypothesis HpW : (snd (gm_prisoners g) < 1000000)%N.

  Lemma score_isC flags : exists b w tb tw,
    calculate_score_by order dbg g flags = Ok (b, w) /\
    card (owned n (pos_of (gm_goban g)) Black) tb /\ card (owned n (pos_of (gm_goban g)) White) tw /\
    isC b (black2 flags (N.of_nat tb) (N.of_nat (count n (pos_of (gm_goban g)) Black)) (fst (gm_prisoners g))) /\
    isC w (white2 flags (N.of_nat tw) (N.of_nat (count n (pos_of (gm_goban g)) White)) (snd (gm_prisoners g)) k2) /\
    (Z.abs (black2 flags (N.of_nat tb) (N.of_nat (count n (pos_of (gm_goban g)) Black)) (fst (gm_prisoners g))) < 2100000)%Z /\
    (Z.abs (white2 flags (N.of_nat tw) (N.of_nat (count n (pos_of (gm_goban g)) White)) (snd (gm_prisoners g)) k2) < 2300000)%Z.
  Proof using W Ho Hk HpB HpW.
    destruct (calculate_territories_ok order dbg n (gm_goban g) W Ho) as (tb & tw & E & CB & CW).
    unfold calculate_score_by. rewrite E. cbn [bind]. rewrite (number_of_stones_ok n _ W).
    pose proof (wf_n n _ W) as Hn.
    pose proof (card_bound n (owned n (pos_of (gm_goban g)) Black) tb ltac:(lia) (fun p H => proj1 H) CB) as BB.
    pose proof (card_bound n (owned n (pos_of (gm_goban g)) White) tw ltac:(lia) (fun p H => proj1 H) CW) as BW.
    pose proof (count_bound n (pos_of (gm_goban g)) Black ltac:(lia)) as SB.
    pose proof (count_bound n (pos_of (gm_goban g)) White ltac:(lia)) as SW.
    destruct Hk as (Hk1 & Hk2 & Hk3). assert (IK : isC (komi g) k2) by (apply valid_isC; [assumption..|sm]).
    assert (ITB : isC (f32_of_N (N.of_nat tb)) (2 * Z.of_N (N.of_nat tb))) by (apply of_N_isC; sm).
    assert (ITW : isC (f32_of_N (N.of_nat tw)) (2 * Z.of_N (N.of_nat tw))) by (apply of_N_isC; sm).
    assert (ISB : isC (f32_of_N (N.of_nat (count n (pos_of (gm_goban g)) Black))) (2 * Z.of_N (N.of_nat (count n (pos_of (gm_goban g)) Black)))) by (apply of_N_isC; sm).
    assert (ISW : isC (f32_of_N (N.of_nat (count n (pos_of (gm_goban g)) White))) (2 * Z.of_N (N.of_nat (count n (pos_of (gm_goban g)) White)))) by (apply of_N_isC; sm).
    assert (IPB : isC (f32_of_N (fst (gm_prisoners g))) (2 * Z.of_N (fst (gm_prisoners g)))) by (apply of_N_isC; sm).
    assert (IPW : isC (f32_of_N (snd (gm_prisoners g))) (2 * Z.of_N (snd (gm_prisoners g)))) by (apply of_N_isC; sm).
    unfold white2, black2.
    rewrite (flag_bit flags 0 STONES), (flag_bit flags 1 KOMI), (flag_bit flags 2 PRISONNERS) by reflexivity.
    destruct (N.testbit flags 2), (N.testbit flags 0), (N.testbit flags 1);
      eexists _, _, tb, tw; (split; [reflexivity|]); (split; [exact CB|]); (split; [exact CW|]);
      rewrite ?Z.add_0_r; (split; [|split; [|split; lia]]);
      repeat first [assumption | apply add_isC | sm].
  Qed.
End Score.

Theorem score_exact order dbg n b0 w0 g k2 flags :
  greach dbg n b0 w0 g -> (forall l, order l ≡ₚ l) ->
  is_f32 (komi g) -> halves (komi g) k2 -> (Z.abs k2 <= 200000)%Z ->
  (fst (gm_prisoners g) < 1000000)%N -> (snd (gm_prisoners g) < 1000000)%N ->
  exists b w tb tw,
    calculate_score_by order dbg g flags = Ok (b, w) /\
    card (owned n (pos_of (gm_goban g)) Black) tb /\ card (owned n (pos_of (gm_goban g)) White) tw /\
    is_f32 b /\ is_f32 w /\
    halves b (black2 flags (N.of_nat tb) (N.of_nat (count n (pos_of (gm_goban g)) Black)) (fst (gm_prisoners g))) /\
    halves w (white2 flags (N.of_nat tw) (N.of_nat (count n (pos_of (gm_goban g)) White)) (snd (gm_prisoners g)) k2).
Proof.
  intros HG Ho V H K PB PW. pose proof (gi_wf _ _ _ _ (greach_inv _ _ _ _ _ HG)) as W.
  destruct (score_isC order dbg n g k2 W Ho (conj V (conj H K)) PB PW flags) as (b & w & tb & tw & E & CB & CW & IB & IW & _).
  exists b, w, tb, tw. destruct (isC_valid _ _ IB), (isC_valid _ _ IW). tauto.
Qed.

Theorem outcome_exact order dbg n b0 w0 g k2 :
  greach dbg n b0 w0 g -> (forall l, order l ≡ₚ l) ->
  is_f32 (komi g) -> halves (komi g) k2 -> (Z.abs k2 <= 200000)%Z ->
  (fst (gm_prisoners g) < 1000000)%N -> (snd (gm_prisoners g) < 1000000)%N ->
  gm_outcome g = None -> gm_passes g = 2%nat ->
  exists tb tw,
    card (owned n (pos_of (gm_goban g)) Black) tb /\ card (owned n (pos_of (gm_goban g)) White) tw /\
    let B := black2 (flag_score (gm_rule g)) (N.of_nat tb) (N.of_nat (count n (pos_of (gm_goban g)) Black)) (fst (gm_prisoners g)) in
    let Wh := white2 (flag_score (gm_rule g)) (N.of_nat tw) (N.of_nat (count n (pos_of (gm_goban g)) White)) (snd (gm_prisoners g)) k2 in
    (outcome order dbg g = Ok (Some Draw) /\ B = Wh) \/
    (exists m, outcome order dbg g = Ok (Some (WinnerByScore Black m)) /\ (B > Wh)%Z /\ is_f32 m /\ halves m (B - Wh)) \/
    (exists m, outcome order dbg g = Ok (Some (WinnerByScore White m)) /\ (Wh > B)%Z /\ is_f32 m /\ halves m (Wh - B)).
Proof.
  intros HG Ho V H K PB PW Ou Pa. pose proof (gi_wf _ _ _ _ (greach_inv _ _ _ _ _ HG)) as W.
  destruct (score_isC order dbg n g k2 W Ho (conj V (conj H K)) PB PW (flag_score (gm_rule g))) as (b & w & tb & tw & E & CB & CW & IB & IW & LB & LW).
  exists tb, tw. split; [exact CB|]. split; [exact CW|].
  set (B := black2 _ _ _ _) in *. set (Wh := white2 _ _ _ _ _) in *. cbv zeta.
  unfold outcome, is_over. rewrite Ou, Pa. cbn [Nat.leb negb]. unfold calculate_score. rewrite E. cbn [bind].
  assert (ID : isC (f32_sub b w) (B - Wh)) by (apply sub_isC; [assumption..|sm]).
  assert (ID' : isC (f32_sub w b) (Wh - B)) by (apply sub_isC; [assumption..|sm]).
  rewrite (abs_lt_eps _ _ ID), (lt_isC w b Wh B IW IB).
  destruct (Z.eqb_spec (B - Wh) 0) as [E0|E0]; [left; split; [reflexivity|lia]|].
  destruct (Z.ltb_spec Wh B) as [L|L]; right; [left|right]; eexists; (split; [reflexivity|]); (split; [lia|]).
  - apply isC_valid, ID.
  - apply isC_valid, ID'.
Qed.
