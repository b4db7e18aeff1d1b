(** Area and territory scores. *)
From stdpp Require Import relations.
From Verif Require Import AreaSpec.
From Verif Require Import MonadFacts Struct Push Inv Bridge GameFacts RulesFacts BoardFacts LegalFacts LegalsFacts ScoreFacts ClaimFacts LongFacts Float32Facts.
From Coq Require Import Lia.

Local Notation length := Datatypes.length.
Open Scope nat_scope.

Lemma area_territory order dbg n b w g k2 :
  greach dbg n b w g -> (forall l, order l ≡ₚ l) ->
  is_f32 (komi g) -> halves (komi g) k2 -> (Z.abs k2 <= 200000)%Z ->
  (fst (gm_prisoners g) < 1000000)%N -> (snd (gm_prisoners g) < 1000000)%N ->
  exists ab aw tb tw A W B V,
    calculate_score_by order dbg g (N.lor KOMI STONES) = Ok (ab, aw) /\
    calculate_score_by order dbg g (N.lor KOMI PRISONNERS) = Ok (tb, tw) /\
    halves ab A /\ halves aw W /\ halves tb B /\ halves tw V /\
    (A - W = B - V + 2 * (Z.of_nat b - Z.of_nat w))%Z.
Proof.
  intros HG Ho Kf Kh Kb P1 P2.
  destruct (score_exact order dbg n b w g k2 (N.lor KOMI STONES) HG Ho Kf Kh Kb P1 P2) as (ab & aw & t1 & t2 & E1 & C1 & C2 & _ & _ & H1 & H2).
  destruct (score_exact order dbg n b w g k2 (N.lor KOMI PRISONNERS) HG Ho Kf Kh Kb P1 P2) as (tb & tw & u1 & u2 & E2 & D1 & D2 & _ & _ & H3 & H4).
  rewrite (card_unique _ _ _ D1 C1) in *. rewrite (card_unique _ _ _ D2 C2) in *.
  eexists ab, aw, tb, tw, _, _, _, _. split; [exact E1|]. split; [exact E2|]. split; [exact H1|]. split; [exact H2|]. split; [exact H3|]. split; [exact H4|].
  destruct (claim_prisoners _ _ _ _ _ HG) as [G1 G2]. unfold white2, black2.
  change (N.testbit (N.lor KOMI STONES) 0) with true.
  change (N.testbit (N.lor KOMI STONES) 1) with true.
  change (N.testbit (N.lor KOMI STONES) 2) with false.
  change (N.testbit (N.lor KOMI PRISONNERS) 0) with false.
  change (N.testbit (N.lor KOMI PRISONNERS) 1) with true.
  change (N.testbit (N.lor KOMI PRISONNERS) 2) with true.
  change (position g) with (pos_of (gm_goban g)) in *. cbn iota. lia.
Qed.

Lemma greach_eq dbg n b w b' w' g : greach dbg n b w g -> b = b' -> w = w' -> greach dbg n b' w' g.
Proof. intros H -> ->. exact H. Qed.

Lemma accepted_all_reach dbg n ms : forall b w g g', greach dbg n b w g -> Forall (plain n) ms -> all_accepted dbg g ms g' ->
  greach dbg n (b + stone_moves (gm_turn g) Black ms) (w + stone_moves (gm_turn g) White ms) g' /\ gm_rule g' = gm_rule g.
Proof.
  induction ms as [|m ms IH]; intros b w g g' HG HF HA.
  - cbn in HA. subst g'. cbn. rewrite !Nat.add_0_r. auto.
  - apply Forall_cons in HF. destruct HF as [Hm HF]. destruct HA as (g1 & E & HA).
    destruct (try_play_inv _ _ _ _ _ E) as [(e & ? & _)|(_ & Hp & Ep)]; [discriminate|].
    destruct m as [|r|x y]; [|contradiction|].
    + pose proof (gr_pass _ _ _ _ _ _ HG Ep) as G1. destruct (IH _ _ _ _ G1 HF HA) as [G R].
      cbn in Ep. destruct (assert_ _) as [[]| |]; try discriminate. injection Ep as <-. split; [exact G|exact R].
    + destruct (accepted_step _ _ _ _ _ _ _ _ (greach_inv _ _ _ _ _ HG) Hm E) as (He & _ & _ & _).
      pose proof (gr_play _ _ _ _ _ _ _ _ HG Hm He Ep) as G1. destruct (IH _ _ _ _ G1 HF HA) as [G R].
      assert (T : gm_turn g1 = opp (gm_turn g) /\ gm_rule g1 = gm_rule g).
      { cbn in Ep.
        destruct (history_insert _ _) as [h| |]; try discriminate. cbn in Ep.
        destruct (push_wth_feedback _ _ _ _) as [[[gb dead] added]| |]; try discriminate. cbn in Ep.
        destruct (game_remove_captured_stones _ _ _ _ _ _) as [[[gb' pris] ko]| |]; try discriminate. cbn in Ep.
        injection Ep as <-. auto. }
      destruct T as [T1 T2]. rewrite T1 in G. rewrite R. split; [|exact T2].
      cbn [stone_moves]. destruct (gm_turn g); cbn [bump_count fst snd opp] in G; repeat (case_decide; try discriminate; try congruence);
(eapply greach_eq; [exact G|cbn [opp]; lia|cbn [opp]; lia]).
Qed.

Lemma moves_count n ms : Forall (plain n) ms -> forall t,
  (stone_moves t Black ms + pass_moves t Black ms + (stone_moves t White ms + pass_moves t White ms) = length ms)%nat /\
  (stone_moves t t ms + pass_moves t t ms = stone_moves t (opp t) ms + pass_moves t (opp t) ms + (if Nat.even (length ms) then 0 else 1))%nat.
Proof.
  induction 1 as [|m ms Hm _ IH]; intros t; [destruct t; cbn; auto|].
  destruct (IH (opp t)) as [I1 I2]. assert (Ho : opp (opp t) = t) by (destruct t; reflexivity). rewrite Ho in I2.
  assert (Ev : (if Nat.even (length (m :: ms)) then 0 else 1) + (if Nat.even (length ms) then 0 else 1) = 1).
  { cbn [Datatypes.length]. rewrite Nat.even_succ, <- Nat.negb_even. destruct (Nat.even (length ms)); reflexivity. }
  split.
  - destruct m as [|r|x y]; [|contradiction|]; destruct t; cbn [stone_moves pass_moves Datatypes.length opp] in *;
      repeat (case_decide; try discriminate; try congruence); lia.
  - destruct m as [|r|x y]; [|contradiction|]; destruct t; cbn [stone_moves pass_moves opp] in *;
      repeat (case_decide; try discriminate; try congruence); lia.
Qed.

Theorem pass_stones order dbg n s r g0 g ms k2 :
  (1 <= n) -> size_of s = (n, n) -> game_new s r = Ok g0 -> (forall l, order l ≡ₚ l) ->
  is_f32 (r_komi r) -> halves (r_komi r) k2 -> (Z.abs k2 <= 200000)%Z ->
  Forall (plain n) ms -> (N.of_nat (length ms) < 1000000)%N -> all_accepted dbg g0 ms g ->
  exists ab aw tb tw A W B V,
    calculate_score_by order dbg g (N.lor KOMI STONES) = Ok (ab, aw) /\
    calculate_score_by order dbg g (N.lor KOMI PRISONNERS) = Ok (tb, tw) /\
    halves ab A /\ halves aw W /\ halves tb B /\ halves tw V /\
    (A - W = (B + 2 * Z.of_nat (pass_moves Black White ms)) - (V + 2 * Z.of_nat (pass_moves Black Black ms))
             + (if Nat.even (length ms) then 0 else 2))%Z.
Proof.
  intros Hn Hs E Ho Kf Kh Kb HF HL HA. pose proof (gr_new dbg n s r g0 Hn Hs E) as G0.
  destruct (accepted_all_reach _ _ _ _ _ _ _ G0 HF HA) as [G R].
  assert (T : gm_turn g0 = Black /\ gm_rule g0 = r).
  { unfold game_new in E. destruct (goban_new _); try discriminate. cbn in E. injection E as <-. auto. }
  destruct T as [T1 T2]. rewrite T1 in G. rewrite T2 in R. cbn [Nat.add] in G.
  destruct (moves_count n ms HF Black) as [M1 M2]. cbn [opp] in M2.
  destruct (claim_prisoners _ _ _ _ _ G) as [P1 P2].
  assert (Kk : komi g = r_komi r) by (unfold komi; rewrite R; reflexivity).
  destruct (area_territory order dbg n _ _ g k2 G Ho) as (ab & aw & tb & tw & A & W & B & V & E1 & E2 & H1 & H2 & H3 & H4 & H5).
  { rewrite Kk; exact Kf. } { rewrite Kk; exact Kh. } { exact Kb. } { lia. } { lia. }
  exists ab, aw, tb, tw, A, W, B, V. repeat (split; [assumption|]). destruct (Nat.even (length ms)); lia.
Qed.

Theorem area_is_the_board order dbg n b w g :
  greach dbg n b w g -> (forall l, order l ≡ₚ l) ->
  exists ab aw A W d,
    calculate_score_by order dbg g STONES = Ok (ab, aw) /\ halves ab A /\ halves aw W /\
    card (neutral n (position g)) d /\ (A + W + 2 * Z.of_nat d = 2 * Z.of_nat n * Z.of_nat n)%Z.
Proof.
  intros HG Ho. pose proof (gi_wf _ _ _ _ (greach_inv _ _ _ _ _ HG)) as Wf.
  (* neither komi nor prisoners matter *)
  pose (g0 := mkGame (gm_goban g) (gm_passes g) (0%N, 0%N) (gm_outcome g) (gm_turn g) (mkRule (f32_make 0 0) 0 0) (gm_handicap g) (gm_history g) (gm_ko_point g)).
  destruct (score_isC order dbg n g0 0%Z Wf Ho ltac:(split; [vm_compute; reflexivity|split; [vm_compute; reflexivity|vm_compute; discriminate]]) ltac:(vm_compute; reflexivity) ltac:(vm_compute; reflexivity) STONES)
    as (ab & aw & t1 & t2 & E1 & C1 & C2 & H1 & H2 & _).
  change (calculate_score_by order dbg g0 STONES) with (calculate_score_by order dbg g STONES) in E1. cbn [gm_goban gm_prisoners g0] in *.
  apply isC_valid in H1, H2. destruct H1 as [_ H1], H2 as [_ H2].
  change (pos_of (gm_goban g)) with (position g) in *. set (P := position g) in *.
  destruct C1 as (lb & Nb & Mb & <-), C2 as (lw & Nw & Mw & <-).
  set (ld := filter (fun p => P p = None /\ p ∉ lb /\ p ∉ lw) (points n)).
  eexists ab, aw, _, _, (length ld). split; [exact E1|]. split; [exact H1|]. split; [exact H2|]. split.
  { exists ld. split; [apply NoDup_filter, NoDup_points|]. split; [|reflexivity]. intros p. unfold ld.
    rewrite elem_of_list_filter, elem_of_points. unfold neutral. rewrite <- Mb, <- Mw. tauto. }
  assert (Pm : filter (fun p => P p = Some Black) (points n) ++ filter (fun p => P p = Some White) (points n) ++ lb ++ lw ++ ld ≡ₚ points n).
  { apply NoDup_Permutation; [|apply NoDup_points|].
    - assert (Dl : forall p, p ∈ lb -> p ∈ lw -> False).
      { intros p A B. apply Mb in A. apply Mw in B. destruct A as (_ & _ & T & _), B as (_ & _ & _ & T'). exact (T' T). }
      assert (El : forall p, p ∈ lb \/ p ∈ lw -> P p = None) by (intros p [A|A]; [apply Mb in A|apply Mw in A]; apply A).
      repeat (apply NoDup_app; split; [first [apply NoDup_filter, NoDup_points|assumption]|split]); try apply NoDup_filter, NoDup_points.
      + intros p A B. apply elem_of_list_filter in A. rewrite !elem_of_app in B. unfold ld in B. rewrite !elem_of_list_filter in B.
        destruct A as [A _]. destruct B as [[B _]|[B|[B|[[B _] _]]]]; try congruence; rewrite El in A; auto; discriminate.
      + intros p A B. apply elem_of_list_filter in A. rewrite !elem_of_app in B. unfold ld in B. rewrite !elem_of_list_filter in B.
        destruct A as [A _]. destruct B as [B|[B|[[B _] _]]]; try congruence; rewrite El in A; auto; discriminate.
      + intros p A B. rewrite elem_of_app in B. unfold ld in B. rewrite elem_of_list_filter in B. destruct B as [B|[(_ & B & _) _]]; [eapply Dl; eassumption|contradiction].
      + intros p A B. unfold ld in B. rewrite elem_of_list_filter in B. destruct B as [(_ & _ & B) _]. contradiction.
    - intros p. rewrite !elem_of_app. unfold ld. rewrite !elem_of_list_filter, !elem_of_points.
      split; [intros [[_ A]|[[_ A]|[A|[A|[_ A]]]]]; auto; [apply Mb in A|apply Mw in A]; apply A|].
      intros Hp. destruct (P p) as [[]|] eqn:Ep; auto.
      destruct (decide (p ∈ lb)); [auto|]. destruct (decide (p ∈ lw)); auto 10. }
  apply Permutation_length in Pm. rewrite !app_length, points_length in Pm.
  unfold white2, black2, count. change (N.testbit STONES 0) with true. change (N.testbit STONES 1) with false. change (N.testbit STONES 2) with false.
  cbn iota. nia.
Qed.
