(** The simulations of the tree search, and [dead_stones] with them. *)
From stdpp Require Import relations sorting.
From Verif Require Import Spec Observe ScoreSpec SimulationSpec SymSpec.
From Verif Require Import LongFacts Struct Push Inv Bridge MonadFacts GameFacts RulesFacts BoardFacts CheckFacts EyeFacts EyeExact FloatingFacts LegalFacts LegalsFacts PlayoutFacts DeadFacts BuildClaims PlayClaims SolidClaims TableClaims ReprFacts RefuteFacts CaseFacts.
From Coq Require Import Lia.

Local Notation length := Datatypes.length.
Open Scope nat_scope.

Lemma offered_kinds dbg n b w g ms m : greach dbg n b w g -> legals_moves dbg g = Ok ms -> m ∈ ms ->
  m = MPass /\ is_over g = false \/ exists x y, m = MPlay x y /\ on n (x, y) /\ pos_of (gm_goban g) (x, y) = None.
Proof.
  intros HG E Hm. pose proof (greach_inv _ _ _ _ _ HG) as G. pose proof (gi_wf _ _ _ _ G) as W.
  unfold legals_moves in E. apply bind_ok in E as (l & El & E). injection E as <-.
  destruct l as [|p l].
  { cbn [List.map] in Hm. destruct (is_over g) eqn:HO; [apply elem_of_nil in Hm; contradiction|]. apply elem_of_list_singleton in Hm. auto. }
  right. cbn [List.map] in Hm. apply elem_of_list_In in Hm.
  apply (in_map_iff (fun p : coord => MPlay (fst p) (snd p)) (p :: l)) in Hm as (q & <- & Hq). apply elem_of_list_In in Hq.
  destruct (legals_by_checks dbg n b w g _ _ G El q Hq) as [Hon Ec]. destruct q as [x y]. exists x, y. cbn [fst snd] in *. split; [reflexivity|]. split; [exact Hon|].
  destruct (check_point_by_ok dbg n g (x, y) (N.lor (flag_illegal (gm_rule g)) FILLEYE) W (gi_hist _ _ _ _ G) Hon) as [[E' _]|(e & E' & HT)]; [congruence|].
  rewrite Ec in E'. injection E' as <-. tauto.
Qed.

Lemma offered_kept dbg n b w g ms m g' : greach dbg n b w g -> gm_outcome g = None -> legals_moves dbg g = Ok ms -> m ∈ ms -> play dbg g m = Ok g' ->
  (exists b' w', greach dbg n b' w' g') /\ gm_outcome g' = None /\ gm_rule g' = gm_rule g.
Proof.
  intros HG HN E Hm Ep. pose proof (play_rule _ _ _ _ Ep) as ER.
  destruct (offered_kinds dbg n b w g ms m HG E Hm) as [[-> HO]|(x & y & -> & Hon & He)].
  - split; [eauto using gr_pass|]. split; [|exact ER]. unfold play in Ep. apply bind_ok in Ep as (u & _ & Ep). injection Ep as <-. exact HN.
  - split; [eauto using gr_play|]. split; [|exact ER].
    destruct (play_spec dbg n b w g x y (greach_inv _ _ _ _ _ HG) Hon He) as [[F _]|(g1 & E1 & H)]; [congruence|].
    rewrite Ep in E1. injection E1 as <-. rewrite <- HN. apply H.
Qed.

Lemma out_kept dbg n b w g g' : greach dbg n b w g -> gm_outcome g = None -> playout_step dbg n g g' ->
  (exists b' w', greach dbg n b' w' g') /\ gm_outcome g' = None /\ gm_rule g' = gm_rule g.
Proof.
  intros HG HN S. split; [exact (step_greach dbg n b w g g' HG S)|]. destruct S as [x y HO Hp E _|l HO El _ E].
  - split; [rewrite <- HN; apply (playout_stone_passes dbg g x y g' E)|exact (LongFacts.try_rule _ _ _ _ _ E)].
  - split; [rewrite <- HN; apply (playout_pass_inv dbg g g' E)|exact (LongFacts.try_rule _ _ _ _ _ E)].
Qed.

Lemma steps_kept dbg n g g' : rtc (simulation_step dbg n) g g' -> forall b w, greach dbg n b w g -> gm_outcome g = None ->
  (exists b' w', greach dbg n b' w' g') /\ gm_outcome g' = None /\ gm_rule g' = gm_rule g.
Proof.
  induction 1 as [g|g g1 g2 S _ IH]; intros b w HG HN; [eauto|].
  assert (K : (exists b' w', greach dbg n b' w' g1) /\ gm_outcome g1 = None /\ gm_rule g1 = gm_rule g).
  { destruct S as [ms m E Hm Ep|S]; [exact (offered_kept dbg n b w g ms m g1 HG HN E Hm Ep)|exact (out_kept dbg n b w g g1 HG HN S)]. }
  destruct K as ((b1 & w1 & HG1) & HN1 & ER). destruct (IH b1 w1 HG1 HN1) as (K & HN2 & ER2). split; [exact K|]. split; [exact HN2|congruence].
Qed.

Lemma descend_spec dbg n way : forall b w g, greach dbg n b w g -> gm_outcome g = None ->
  (exists g', descend dbg way g = Ok g' /\ rtc (simulation_step dbg n) g g') \/
  (descend dbg way g = Panic /\ exists g1, rtc (simulation_step dbg n) g g1 /\ no_slot_left g1).
Proof.
  induction way as [|j way IH]; intros b w g HG HN; cbn [descend].
  { left. exists g. split; [reflexivity|apply rtc_refl]. }
  pose proof (greach_inv _ _ _ _ _ HG) as G.
  destruct (legals_moves dbg g) as [ms| |] eqn:E; cbn [bind].
  - destruct (ms !! j) as [m|] eqn:Ej; [|left; exists g; split; [reflexivity|apply rtc_refl]].
    apply elem_of_list_lookup_2 in Ej. unfold do_move.
    assert (K : (exists g1, play dbg g m = Ok g1) \/ play dbg g m = Panic /\ no_slot_left g).
    { destruct (offered_kinds dbg n b w g ms m HG E Ej) as [[-> HO]|(x & y & -> & Hon & He)].
      - left. destruct (not_over g HO) as [_ HP]. destruct (play_pass dbg g HP) as (g1 & E1 & _). eauto.
      - destruct (play_spec dbg n b w g x y G Hon He) as [[F [L _]]|(g1 & E1 & _)]; eauto. }
    destruct K as [[g1 E1]|[E1 L]]; rewrite E1; cbn [bind].
    + destruct (offered_kept dbg n b w g ms m g1 HG HN E Ej E1) as ((b1 & w1 & HG1) & HN1 & _).
      assert (S : simulation_step dbg n g g1) by (eapply step_down; eassumption).
      destruct (IH b1 w1 g1 HG1 HN1) as [(g2 & E2 & R)|(E2 & g2 & R & L)]; [left; exists g2|right; split; [exact E2|]; exists g2; split; [|exact L]].
      * split; [exact E2|eapply rtc_l; eassumption].
      * eapply rtc_l; eassumption.
    + right. split; [reflexivity|]. exists g. split; [apply rtc_refl|exact L].
  - right. split; [reflexivity|]. exists g. split; [apply rtc_refl|]. unfold legals_moves in E.
    destruct (legals_by_panic dbg n b w g (N.lor (flag_illegal (gm_rule g)) FILLEYE) G) as [[l E']|[_ L]]; [|exact L]. rewrite E' in E. discriminate.
  - exfalso. unfold legals_moves in E.
    destruct (legals_by_panic dbg n b w g (N.lor (flag_illegal (gm_rule g)) FILLEYE) G) as [[l E']|[E' _]]; rewrite E' in E; discriminate.
Qed.

Lemma outs_simulated dbg n g g' : rtc (playout_step dbg n) g g' -> rtc (simulation_step dbg n) g g'.
Proof. induction 1 as [|a b c S _ IH]; [apply rtc_refl|]. eapply rtc_l; [right; exact S|exact IH]. Qed.

(** the games of one simulation, and the final game it evaluates *)
Lemma simulation_runs order fuel dbg n b w ch g j : greach dbg n b w g -> gm_outcome g = None -> (forall i l, ch_shuffles ch j i l ≡ₚ l) ->
  (47316994 < N.of_nat fuel)%N ->
  (exists final, rtc (simulation_step dbg n) g final /\ is_over final = true /\
     simulation order fuel dbg ch g j = evaluate_leaf order dbg final (ch_color ch j)) \/
  (simulation order fuel dbg ch g j = Panic /\ exists g1, rtc (simulation_step dbg n) g g1 /\ no_slot_left g1).
Proof.
  intros HG HN Hsh Hf. unfold simulation.
  destruct (descend_spec dbg n (ch_way ch j) b w g HG HN) as [(leaf & E & R)|(E & K)]; rewrite E; cbn [bind]; [|right; auto].
  destruct (steps_kept dbg n g leaf R b w HG HN) as ((b1 & w1 & HG1) & HN1 & _).
  destruct (claim_playout dbg n b1 w1 leaf (ch_shuffles ch j) fuel 0 HG1 Hsh Hf) as [(h & E1 & R1 & HO)|(E1 & h & R1 & L)]; rewrite E1; cbn [bind].
  - left. exists h. split; [etrans; [exact R|apply outs_simulated, R1]|]. auto.
  - right. split; [reflexivity|]. exists h. split; [etrans; [exact R|apply outs_simulated, R1]|exact L].
Qed.

Lemma over_passes dbg n b w g : greach dbg n b w g -> gm_outcome g = None -> is_over g = true -> gm_passes g = 2.
Proof.
  intros HG HN HO. unfold is_over in HO. rewrite HN in HO. apply Nat.leb_le in HO.
  pose proof (gi_passes _ _ _ _ (greach_inv _ _ _ _ _ HG)). lia.
Qed.

(** the reward of a simulation *)
Theorem simulation_reward order fuel dbg n b w ch g j k2 : greach dbg n b w g -> gm_outcome g = None -> (forall l, order l ≡ₚ l) ->
  (forall i l, ch_shuffles ch j i l ≡ₚ l) -> is_f32 (komi g) -> halves (komi g) k2 -> (Z.abs k2 <= 200000)%Z -> (47316994 < N.of_nat fuel)%N ->
  (simulation order fuel dbg ch g j = Panic /\ exists g1, rtc (simulation_step dbg n) g g1 /\ no_slot_left g1) \/
  exists final, rtc (simulation_step dbg n) g final /\ is_over final = true /\
    ((fst (gm_prisoners final) < 1000000)%N -> (snd (gm_prisoners final) < 1000000)%N ->
     exists tb tw, card (owned n (position final) Black) tb /\ card (owned n (position final) White) tw /\
      let B := black2 (flag_score (gm_rule g)) (N.of_nat tb) (N.of_nat (count n (position final) Black)) (fst (gm_prisoners final)) in
      let Wh := white2 (flag_score (gm_rule g)) (N.of_nat tw) (N.of_nat (count n (position final) White)) (snd (gm_prisoners final)) k2 in
      let mine := match ch_color ch j with Black => B | White => Wh end in
      let theirs := match ch_color ch j with Black => Wh | White => B end in
      (simulation order fuel dbg ch g j = Ok 1 <-> (mine > theirs)%Z) /\
      (simulation order fuel dbg ch g j = Ok 0 <-> (mine < theirs)%Z) /\
      (simulation order fuel dbg ch g j = Panic <-> mine = theirs)).
Proof.
  intros HG HN Ho Hsh Hk Hh Hb Hf. destruct (simulation_runs order fuel dbg n b w ch g j HG HN Hsh Hf) as [(h & R & HO & E)|H]; [right|left; exact H].
  exists h. split; [exact R|]. split; [exact HO|]. intros P1 P2. destruct (steps_kept dbg n g h R b w HG HN) as ((b1 & w1 & HG1) & HN1 & ER).
  assert (EK : komi h = komi g) by (unfold komi; rewrite ER; reflexivity).
  destruct (leaf_reward order dbg n b1 w1 h k2 (ch_color ch j) HG1 Ho ltac:(rewrite EK; exact Hk) ltac:(rewrite EK; exact Hh) Hb P1 P2 HN1 (over_passes dbg n b1 w1 h HG1 HN1 HO))
    as (tb & tw & C1 & C2 & H). exists tb, tw. split; [exact C1|]. split; [exact C2|]. rewrite ER in H. rewrite E. exact H.
Qed.

Lemma leaf_total order dbg n b w g c : greach dbg n b w g -> (forall l, order l ≡ₚ l) ->
  evaluate_leaf order dbg g c = Ok 0 \/ evaluate_leaf order dbg g c = Ok 1 \/ evaluate_leaf order dbg g c = Panic.
Proof.
  intros HG Ho. assert (A : look_alike n g g) by (constructor; [intros q _; reflexivity|reflexivity..|induction (gm_history g); constructor; [intros q _; reflexivity|assumption]]).
  destruct (alike_score n order order dbg dbg b w b w g g 0%N HG HG Ho Ho A) as (_ & o & E & _).
  unfold evaluate_leaf, game_get_winner. rewrite E. cbn [bind]. destruct o as [e|]; cbn [unwrap bind]; [|auto].
  destruct (endgame_winner e) as [c'|]; cbn [unwrap bind]; [|auto]. destruct (color_eqb c' c); auto.
Qed.

(** with half a point of komi there is a winner *)
Lemma simulation_decides order fuel dbg n b w ch g j k2 : greach dbg n b w g -> gm_outcome g = None -> (forall l, order l ≡ₚ l) ->
  (forall i l, ch_shuffles ch j i l ≡ₚ l) -> N.testbit (flag_score (gm_rule g)) 1 = true ->
  is_f32 (komi g) -> halves (komi g) k2 -> Z.odd k2 = true -> (Z.abs k2 <= 200000)%Z -> (47316994 < N.of_nat fuel)%N ->
  (simulation order fuel dbg ch g j = Ok 0 \/ simulation order fuel dbg ch g j = Ok 1) \/
  (simulation order fuel dbg ch g j = Panic /\ exists g1, rtc (simulation_step dbg n) g g1 /\ worn_out g1).
Proof.
  intros HG HN Ho Hsh Ht Hk Hh Hodd Hb Hf.
  destruct (simulation_runs order fuel dbg n b w ch g j HG HN Hsh Hf) as [(h & R & HO & E)|(E & g1 & R & L)]; [|right; unfold worn_out; eauto 6].
  destruct (steps_kept dbg n g h R b w HG HN) as ((b1 & w1 & HG1) & HN1 & ER).
  assert (EK : komi h = komi g) by (unfold komi; rewrite ER; reflexivity).
  destruct (N.lt_ge_cases (fst (gm_prisoners h)) 1000000) as [P1|P1]; [destruct (N.lt_ge_cases (snd (gm_prisoners h)) 1000000) as [P2|P2]|].
  - left. destruct (leaf_reward order dbg n b1 w1 h k2 (ch_color ch j) HG1 Ho ltac:(rewrite EK; exact Hk) ltac:(rewrite EK; exact Hh) Hb P1 P2 HN1 (over_passes dbg n b1 w1 h HG1 HN1 HO))
      as (tb & tw & _ & _ & H). cbv zeta in H. rewrite ER in H. unfold white2, black2 in H. rewrite Ht in H.
    apply Z.odd_spec in Hodd as [q ->]. rewrite E. destruct H as (H1 & H2 & _).
    destruct (ch_color ch j), (N.testbit (flag_score (gm_rule g)) 2), (N.testbit (flag_score (gm_rule g)) 0);
      match type of H1 with _ <-> (?a > ?b)%Z => destruct (Z.lt_trichotomy a b) as [K|[K|K]]; [left; apply H2; exact K|exfalso; lia|right; apply H1; lia] end.
  - destruct (leaf_total order dbg n b1 w1 h (ch_color ch j) HG1 Ho) as [K|[K|K]]; rewrite E; [auto|auto|right]. split; [exact K|]. exists h. split; [exact R|]. unfold worn_out. auto.
  - destruct (leaf_total order dbg n b1 w1 h (ch_color ch j) HG1 Ho) as [K|[K|K]]; rewrite E; [auto|auto|right]. split; [exact K|]. exists h. split; [exact R|]. unfold worn_out. auto.
Qed.

Lemma simulations_decide order fuel dbg n b w ch g k2 : greach dbg n b w g -> gm_outcome g = None -> (forall l, order l ≡ₚ l) ->
  (forall j i l, ch_shuffles ch j i l ≡ₚ l) -> N.testbit (flag_score (gm_rule g)) 1 = true ->
  is_f32 (komi g) -> halves (komi g) k2 -> Z.odd k2 = true -> (Z.abs k2 <= 200000)%Z -> (47316994 < N.of_nat fuel)%N -> forall js,
  (exists rewards, mapM (simulation order fuel dbg ch g) js = Ok rewards /\ length rewards = length js) \/
  (mapM (simulation order fuel dbg ch g) js = Panic /\ exists g1, rtc (simulation_step dbg n) g g1 /\ worn_out g1).
Proof.
  intros HG HN Ho Hsh Ht Hk Hh Hodd Hb Hf. induction js as [|j js IH]; cbn [mapM]; [left; exists []; auto|].
  destruct (simulation_decides order fuel dbg n b w ch g j k2 HG HN Ho (Hsh j) Ht Hk Hh Hodd Hb Hf) as [K|[K L]]; [|rewrite K; right; auto].
  assert (K' : exists r, simulation order fuel dbg ch g j = Ok r) by (destruct K; eauto). destruct K' as [r ->]. cbn [bind].
  destruct IH as [(rs & -> & El)|[-> L]]; cbn [bind]; [left; exists (r :: rs); cbn; auto|right; auto].
Qed.

Lemma search_simulated dbg n g g' : rtc (search_step dbg n) g g' -> forall b w, greach dbg n b w g -> rtc (simulation_step dbg n) g g'.
Proof.
  induction 1 as [g|g g1 g2 [ms m HO E Hm Et] _ IH]; intros b w HG; [apply rtc_refl|].
  assert (Ep : play dbg g m = Ok g1).
  { unfold try_play in Et. destruct (gm_passes g =? 2); [discriminate|]. destruct m as [|c|x y].
    - apply bind_ok in Et as (h & Ep & Et). congruence.
    - apply bind_ok in Et as (h & Ep & Et). congruence.
    - apply bind_ok in Et as (c & _ & Et). destruct (negb _); [discriminate|]. apply bind_ok in Et as ([e|] & _ & Et); [discriminate|].
      apply bind_ok in Et as (h & Ep & Et). congruence. }
  assert (S : simulation_step dbg n g g1) by (eapply step_down; eassumption).
  destruct (offered_kinds dbg n b w g ms m HG E Hm) as [[-> _]|(x & y & -> & Hon & He)]; eapply rtc_l; try exact S; eapply IH; eauto using gr_pass, gr_play.
Qed.

(** [dead_stones] with simulations always answers, if the komi has half a point and counts *)
Theorem dead_stones_simulated order fuel nb chs dbg n b w g k2 : greach dbg n b w g -> (forall l, order l ≡ₚ l) ->
  (forall i, fair nb (chs i)) -> N.testbit (flag_score (gm_rule g)) 1 = true ->
  is_f32 (komi g) -> halves (komi g) k2 -> Z.odd k2 = true -> (Z.abs k2 <= 200000)%Z -> (47316994 < N.of_nat fuel)%N ->
  (exists l fl final, dead_stones_wth_simulations order fuel nb chs dbg g = Ok l /\ get_floating_stones dbg g = Ok fl /\
     rtc (search_step dbg n) g final /\ is_over final = true /\ StronglySorted lt l /\
     forall k, k ∈ l <-> k ∈ fl /\ exists p, on n p /\ group_no (gm_goban g) p = Some k /\ position final p <> position g p) \/
  (dead_stones_wth_simulations order fuel nb chs dbg g = Panic /\ exists g1, rtc (simulation_step dbg n) g g1 /\ worn_out g1).
Proof.
  intros HG Ho Hfair Ht Hk Hh Hodd Hb Hf. unfold dead_stones_wth_simulations.
  destruct (gm_outcome g) as [e|] eqn:HN.
  { assert (HO : is_over g = true) by (unfold is_over; rewrite HN; reflexivity).
    destruct (floating_exact dbg n b w g HG) as (fl & Ef & _). left. exists [], fl, g. split; [exact (dead_stones_over dbg n b w g _ fuel HG HO)|].
    split; [exact Ef|]. split; [apply rtc_refl|]. split; [exact HO|]. split; [constructor|].
    intros k. split; [intros F; apply elem_of_nil in F; contradiction|intros (_ & p & _ & _ & F); contradiction]. }
  set (search := fun i h ms => tree_search order fuel nb dbg (chs i) h ms).
  assert (K : forall i h ms, rtc (search_step dbg n) g h -> is_over h = false -> legals_moves dbg h = Ok ms ->
     (exists m, search i h ms = Ok m /\ m ∈ ms) \/ search i h ms = Panic /\ exists g1, rtc (simulation_step dbg n) g g1 /\ worn_out g1).
  { intros i h ms R HO El. pose proof (search_simulated dbg n g h R b w HG) as R'. destruct (steps_kept dbg n g h R' b w HG HN) as ((b1 & w1 & HH) & HN1 & ER).
    subst search. cbv beta. unfold tree_search. destruct (Hfair i) as [Hsh Hbest].
    assert (EK : komi h = komi g) by (unfold komi; rewrite ER; reflexivity).
    destruct (simulations_decide order fuel dbg n b1 w1 (chs i) h k2 HH HN1 Ho Hsh ltac:(rewrite ER; exact Ht) ltac:(rewrite EK; exact Hk) ltac:(rewrite EK; exact Hh) Hodd Hb Hf (seq 0 nb))
      as [(rs & E & El')|(E & g1 & R1 & L)]; rewrite E; cbn [bind].
    - left. rewrite seq_length in El'. pose proof (Hbest rs ms El' (offered_some dbg h ms HO El)) as Hlt.
      destruct (lookup_lt_is_Some_2 ms _ Hlt) as [m Em]. rewrite Em. exists m. split; [reflexivity|]. eapply elem_of_list_lookup_2, Em.
    - right. split; [reflexivity|]. exists g1. split; [etrans; eassumption|exact L]. }
  assert (HA : answers dbg n search g) by (intros i h ms R HO El; destruct (K i h ms R HO El) as [H|[H _]]; auto).
  destruct (dead_stones_spec dbg n b w g search fuel HG HA Hf) as [H|(E & g1 & R & [L|(i & ms & HO & El & Es)])]; [left; exact H|right..].
  - split; [exact E|]. exists g1. split; [exact (search_simulated dbg n g g1 R b w HG)|left; exact L].
  - split; [exact E|]. destruct (K i g1 ms R HO El) as [(m & Em & _)|[_ H]]; [congruence|exact H].
Qed.
