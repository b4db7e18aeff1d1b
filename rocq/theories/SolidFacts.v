(** Chains with two solid eyes survive random playouts and the play of the tree
    search, and [dead_stones] never reports them. *)
From stdpp Require Import relations.
From Verif Require Import LifeSpec PlayoutSpec.
From Verif Require Import MonadFacts Struct Push Inv Bridge GameFacts RulesFacts EyeFacts EyeExact PropFacts BoardFacts LegalFacts LegalsFacts ClaimFacts LongFacts FloatingFacts PlayoutFacts DeadFacts LifeFacts.
From Coq Require Import Lia.

Local Notation length := Datatypes.length.
Open Scope nat_scope.

Lemma corner_diag p d q : d ∈ directions -> corner p d q -> diag p q.
Proof.
  intros Hd [A B]. unfold directions in Hd. apply elem_of_list_In in Hd. cbn in Hd.
  destruct Hd as [<-|[<-|[<-|[<-|[]]]]]; cbn [fst snd] in A, B; unfold diag; lia.
Qed.

Lemma solid_shape n P c e : P e = None -> (forall q, on n q -> adj e q \/ diag e q -> P q = Some c) -> eye_shape n P c e.
Proof.
  intros He H. split; [exact He|]. split; [intros q Hq A; apply H; auto|]. left. exists directions.
  split; [repeat constructor; set_solver|]. split; [reflexivity|].
  intros d. split; [|tauto]. intros Hd. split; [exact Hd|]. intros q Hq C. apply H; [exact Hq|]. right. eapply corner_diag; eassumption.
Qed.

Global Instance diag_decision p q : Decision (diag p q).
Proof. unfold diag. apply _. Defined.

(** either way of playing on *)
Definition plays_on (dbg : bool) (n : nat) (g g' : game) : Prop := playout_step dbg n g g' \/ search_step dbg n g g'.

Lemma search_no_eye dbg n b w g ms x y : greach dbg n b w g -> is_over g = false -> legals_moves dbg g = Ok ms -> MPlay x y ∈ ms ->
  on n (x, y) /\ check_eye dbg g ((x, y), gm_turn g) = Ok false.
Proof.
  intros HG HO E Hm. pose proof (greach_inv _ _ _ _ _ HG) as G. pose proof (gi_wf _ _ _ _ G) as W.
  unfold legals_moves in E. apply bind_ok in E as (l & E & Em). rewrite HO in Em. injection Em as <-.
  assert (Hp : (x, y) ∈ l).
  { destruct l as [|p l]; [apply elem_of_list_singleton in Hm; discriminate|]. cbn [List.map] in Hm.
    apply elem_of_list_In in Hm. apply (in_map_iff (fun p : coord => MPlay (fst p) (snd p)) (p :: l)) in Hm as (q & Eq & Hq).
    injection Eq as <- <-. rewrite <- surjective_pairing. apply elem_of_list_In, Hq. }
  destruct (legals_by_checks _ _ _ _ _ _ _ G E _ Hp) as [Hon Ec]. split; [exact Hon|].
  destruct (check_point_by_ok dbg n g (x, y) (N.lor (flag_illegal (gm_rule g)) FILLEYE) W (gi_hist _ _ _ _ G) Hon) as [[E' _]|(e & E' & HT)]; rewrite Ec in E'; [discriminate|].
  injection E' as <-. apply HT. unfold flag_contains. apply N.eqb_eq. apply N.bits_inj. intros i. rewrite N.land_spec, N.lor_spec.
  destruct (N.testbit FILLEYE i), (N.testbit (flag_illegal (gm_rule g)) i); reflexivity.
Qed.

Section Solid.
  Variables (dbg : bool) (n : nat) (c : color) (X F : list coord).
  Hypothesis around : forall e q, e ∈ F -> on n q -> adj e q \/ diag e q -> q ∈ X.

  Lemma plays_on_spares b w g g' : greach dbg n b w g -> alive n (position g) c X (List.map (fun e => [e]) F) ->
    plays_on dbg n g g' -> spares dbg n c (List.map (fun e => [e]) F) g g'.
  Proof using around.
    intros HG (HX & _ & _) H.
    assert (K : forall e, e ∈ F -> position g e = None -> eye_shape n (position g) c e).
    { intros e He Ee. apply solid_shape; [exact Ee|]. intros q Hq A. apply HX. eapply around; eassumption. }
    assert (M : forall x y, on n (x, y) -> try_play dbg g (MPlay x y) = Ok (g', Accepted) -> ~ eye_shape n (position g) (gm_turn g) (x, y) ->
      spares dbg n c (List.map (fun e => [e]) F) g g').
    { intros x y Hon E Hn. left. exists x, y, Accepted. split; [exact Hon|]. split; [exact E|]. intros Ht _ R HR Hr.
      apply elem_of_list_In, in_map_iff in HR. destruct HR as (e & <- & He). apply elem_of_list_singleton in Hr. subst e. apply elem_of_list_In in He.
      apply Hn. rewrite Ht. apply K; [exact He|]. apply (accepted_step _ _ _ _ _ _ _ _ (greach_inv _ _ _ _ _ HG) Hon E). }
    destruct H as [[x y HO Hon E Hn|l HO El Hl E]|[ms m HO El Hm E]].
    - exact (M x y Hon E Hn).
    - right. left. exists Accepted. exact E.
    - destruct m as [|r|x y].
      + right. left. exists Accepted. exact E.
      + right. right. left. exists r, Accepted. exact E.
      + destruct (search_no_eye _ _ _ _ _ _ _ _ HG HO El Hm) as [Hon Ee]. apply (M x y Hon E). intros Hs.
        destruct (claim_eye_exact dbg n b w g (x, y) (gm_turn g) HG Hon) as (v & Ev & Hv). apply Hv in Hs. subst v. pose proof (eq_trans (eq_sym Ev) Ee). discriminate.
  Qed.
End Solid.

Lemma solid_life dbg n b w c p e1 e2 g g' : greach dbg n b w g -> forbids_suicide (gm_rule g) = true ->
  on n p -> position g p = Some c -> e1 <> e2 -> solid_eye n (position g) p e1 -> solid_eye n (position g) p e2 ->
  rtc (plays_on dbg n) g g' -> position g' p = Some c.
Proof.
  intros HG HS Hp Ep Hne [L1 N1] [L2 N2] H.
  set (P := position g) in *.
  set (X := p :: filter (fun q => (adj e1 q \/ diag e1 q) \/ (adj e2 q \/ diag e2 q)) (points n)).
  assert (HN : forall q, on n q -> (adj e1 q \/ diag e1 q) \/ (adj e2 q \/ diag e2 q) -> connected n P p q) by (intros q Hq [A|A]; auto).
  assert (HX : forall x, x ∈ X -> on n x /\ P x = Some c /\ connected n P p x).
  { intros x Hx. unfold X in Hx. apply elem_of_cons in Hx. destruct Hx as [->|Hx]; [repeat split; auto; try apply Hp; apply rtc_refl|].
    apply elem_of_list_filter in Hx. destruct Hx as [A Hx]. apply elem_of_points in Hx. pose proof (HN x Hx A) as C.
    split; [exact Hx|]. split; [|exact C]. rewrite <- (connected_color _ _ _ _ C). exact Ep. }
  assert (IX : forall e q, e ∈ [e1; e2] -> on n q -> adj e q \/ diag e q -> q ∈ X).
  { intros e q He Hq A. unfold X. apply elem_of_cons. right. apply elem_of_list_filter. split; [|apply elem_of_points; exact Hq].
    apply elem_of_cons in He. destruct He as [->|He]; [left; exact A|]. apply elem_of_list_singleton in He. subst e. right. exact A. }
  assert (V : forall x e, x ∈ X -> liberty n P p e -> vital n P x [e]).
  { intros x e Hx (Hon & He & q & Cq & Aq) z Hz _. apply elem_of_list_singleton in Hz. subst z.
    split; [exact Hon|]. split; [exact He|]. exists q. split; [|exact Aq]. eapply rtc_transitive; [|exact Cq].
    apply connected_sym, (HX x Hx). }
  assert (R : forall e, liberty n P p e -> e ∈ [e1; e2] -> closed_region n P c X [e]).
  { intros e (Hon & He & _) Hee. split; [|split].
    - intros z Hz. apply elem_of_list_singleton in Hz. subst z. split; [exact Hon|congruence].
    - exists e. split; [apply elem_of_list_singleton; reflexivity|exact He].
    - intros z q Hz Hq A. apply elem_of_list_singleton in Hz. subst z. right. apply (IX e q Hee Hq). auto. }
  assert (I1 : e1 ∈ [e1; e2]) by left. assert (I2 : e2 ∈ [e1; e2]) by (right; left).
  assert (HA : alive n P c X (List.map (fun e => [e]) [e1; e2])).
  { split; [intros x Hx; destruct (HX x Hx) as (A & B & _); auto|]. split.
    - intros S HS'. cbn in HS'. apply elem_of_cons in HS'. destruct HS' as [->|HS']; [apply R; auto|].
      apply elem_of_list_singleton in HS'. subst S. apply R; auto.
    - intros x Hx. exists [e1], [e2]. split; [left|]. split; [right; left|].
      split; [|split; apply V; assumption]. intros z Hz1 Hz2. apply elem_of_list_singleton in Hz1, Hz2. congruence. }
  assert (PX : p ∈ X) by left.
  clearbody X. subst P. clear - HG HS HA H IX PX. revert b w HG HS HA. induction H as [g|g g1 g2 S _ IH]; intros b w HG HS HA.
  - apply HA, PX.
  - destruct (spares_step _ _ _ _ _ _ _ _ _ HG HS HA (plays_on_spares _ _ _ _ _ IX _ _ _ _ HG HA S)) as ((b1 & w1 & G1) & S1 & A1). exact (IH _ _ G1 S1 A1).
Qed.

Lemma playout_steps dbg n shuffles fuel : (forall i l, shuffles i l ≡ₚ l) -> forall i b w g g', greach dbg n b w g ->
  playout fuel i shuffles dbg g = Ok g' -> rtc (playout_step dbg n) g g'.
Proof.
  intros Hp. induction fuel as [|fuel IH]; intros i b w g g' HG E.
  - cbn [playout] in E. destruct (is_over g); [injection E as ->; apply rtc_refl|discriminate].
  - rewrite playout_unfold in E. destruct (is_over g) eqn:HO; [injection E as ->; apply rtc_refl|].
    destruct (fast_step dbg n shuffles Hp b w g i HG HO) as [[E' _]|(g1 & b1 & w1 & E' & HS & HG1 & _)]; rewrite E' in E; [discriminate|].
    cbn [bind] in E. eapply rtc_l; [exact HS|]. exact (IH (S i) b1 w1 g1 g' HG1 E).
Qed.

Theorem playouts_spare dbg n b w c p e1 e2 g g' shuffles fuel i : greach dbg n b w g -> forbids_suicide (gm_rule g) = true ->
  on n p -> position g p = Some c -> e1 <> e2 -> solid_eye n (position g) p e1 -> solid_eye n (position g) p e2 ->
  (forall j l, shuffles j l ≡ₚ l) -> playout fuel i shuffles dbg g = Ok g' -> position g' p = Some c.
Proof.
  intros HG HS Hp Ep Hne S1 S2 Hs E. apply (solid_life dbg n b w c p e1 e2 g g'); auto.
  pose proof (playout_steps dbg n shuffles fuel Hs i b w g g' HG E) as H. clear - H.
  induction H as [|a b c S _ IH]; [apply rtc_refl|]. eapply rtc_l; [left; exact S|exact IH].
Qed.

Lemma solid_moves n P p q e : connected n P p q -> solid_eye n P p e -> solid_eye n P q e.
Proof.
  intros C [(Ho & He & z & Cz & A) N]. apply connected_sym in C. split.
  - split; [exact Ho|]. split; [exact He|]. exists z. split; [exact (rtc_transitive _ _ _ C Cz)|exact A].
  - intros x Hx Ax. exact (rtc_transitive _ _ _ C (N x Hx Ax)).
Qed.

Lemma play_out_steps dbg n search fuel g0 : answers dbg n search g0 -> forall i b w g g', rtc (search_step dbg n) g0 g -> greach dbg n b w g ->
  play_out fuel i search dbg g = Ok g' -> rtc (search_step dbg n) g g' /\ exists b' w', greach dbg n b' w' g'.
Proof.
  intros Hs. induction fuel as [|fuel IH]; intros i b w g g' HR HG E.
  - cbn [play_out] in E. destruct (is_over g); [injection E as ->; split; [apply rtc_refl|eauto]|discriminate].
  - rewrite play_out_unfold in E. destruct (is_over g) eqn:HO; [injection E as ->; split; [apply rtc_refl|eauto]|].
    destruct (search_one dbg n search g0 Hs b w g i HR HG HO) as [[E' _]|(g1 & b1 & w1 & E' & HS & HG1 & _)]; rewrite E' in E; [discriminate|].
    cbn [bind] in E. destruct (IH (S i) b1 w1 g1 g' (rtc_r _ _ _ HR HS) HG1 E) as [R K]. split; [|exact K]. eapply rtc_l; [exact HS|exact R].
Qed.

Theorem never_dead dbg n b w c p e1 e2 g search fuel k l : greach dbg n b w g -> forbids_suicide (gm_rule g) = true ->
  on n p -> position g p = Some c -> e1 <> e2 -> solid_eye n (position g) p e1 -> solid_eye n (position g) p e2 ->
  answers dbg n search g ->
  dead_stones fuel search dbg g = Ok l -> group_no (gm_goban g) p = Some k -> k ∉ l.
Proof.
  intros HG HS Hp Ep Hne S1 S2 Hs E Ek Hk.
  destruct (floating_exact dbg n b w g HG) as (fl & Ef & _). destruct (floating_live dbg n b w g fl HG Ef) as [Hsort Hlive].
  unfold dead_stones in E. rewrite Ef in E. cbn [bind] in E. apply bind_ok in E as (h & Eh & E).
  destruct (play_out_steps dbg n search fuel g Hs 0 b w g h (rtc_refl _ _) HG Eh) as (R & b' & w' & HH).
  destruct (compare_ok dbg n b w b' w' g h fl HG HH Hlive Hsort) as (l' & El & _ & Hl). rewrite E in El. injection El as <-.
  destruct (proj1 (Hl k) Hk) as (_ & q & Hq & Eq & F). apply F.
  destruct (claim_components dbg n (b + w) (gm_goban g) p (br_game _ _ _ _ _ HG) Hp) as [K _]; [change (position g p <> None); congruence|].
  assert (C : connected n (position g) p q) by (apply K; congruence).
  assert (Ec : position g q = Some c) by (rewrite <- (connected_color _ _ _ _ C); exact Ep). rewrite Ec.
  apply (solid_life dbg n b w c q e1 e2 g h); auto; [eapply solid_moves; eassumption|eapply solid_moves; eassumption|].
  clear - R. induction R as [|a b c S _ IH]; [apply rtc_refl|]. eapply rtc_l; [right; exact S|exact IH].
Qed.

(** every group that is reported touches three eyes *)
Theorem reported_have_eyes dbg n b w g search fuel k l : greach dbg n b w g ->
  answers dbg n search g ->
  dead_stones fuel search dbg g = Ok l -> k ∈ l ->
  exists e1 e2 e3, NoDup [e1; e2; e3] /\ forall e, e ∈ [e1; e2; e3] ->
    on n e /\ (eye_shape n (position g) Black e \/ eye_shape n (position g) White e) /\ exists q, on n q /\ adj e q /\ group_no (gm_goban g) q = Some k.
Proof.
  intros HG Hs E Hk.
  destruct (floating_exact dbg n b w g HG) as (fl & Ef & _ & Hfl). destruct (floating_live dbg n b w g fl HG Ef) as [Hsort Hlive].
  unfold dead_stones in E. rewrite Ef in E. cbn [bind] in E. apply bind_ok in E as (h & Eh & E).
  destruct (play_out_steps dbg n search fuel g Hs 0 b w g h (rtc_refl _ _) HG Eh) as (R & b' & w' & HH).
  destruct (compare_ok dbg n b w b' w' g h fl HG HH Hlive Hsort) as (l' & El & _ & Hl). rewrite E in El. injection El as <-.
  destruct (proj1 (Hl k) Hk) as [Hf _]. apply Hfl in Hf as (_ & m & Hm & pts & Nd & Hp & Hlen).
  destruct pts as [|e1 [|e2 [|e3 pts]]]; cbn in Hlen; try lia. exists e1, e2, e3. split.
  { change (e1 :: e2 :: e3 :: pts) with ([e1; e2; e3] ++ pts) in Nd. apply NoDup_app in Nd. apply Nd. }
  intros e He. assert (In : e ∈ e1 :: e2 :: e3 :: pts) by (change (e ∈ [e1; e2; e3] ++ pts); apply elem_of_app; auto).
  apply Hp in In as (Ho & Hse & Hq). split; [exact Ho|]. split; [exact Hse|exact Hq].
Qed.
