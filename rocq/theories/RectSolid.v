(** Chains with two solid eyes survive random playouts and the play of the tree search,
    on boards whose width divides their height. *)
From stdpp Require Import relations.
From Verif Require Import RectLifeSpec RectPlayoutSpec PlayoutSpec.
From Verif Require Import MonadFacts Struct Push Inv Bridge GameFacts RulesFacts EyeFacts EyeExact PropFacts BoardFacts LegalFacts LegalsFacts ClaimFacts LongFacts FloatingFacts PlayoutFacts DeadFacts LifeFacts SolidFacts.
From Verif Require Import RectReach RectCoord RectInv RectBridge RectGame RectReachFacts RectRules RectBoard RectCheck RectEye RectVerdict RectMoves RectLegal RectSymClaims RectViews RectPlayout RectDead RectLife.
From Coq Require Import Lia.

Local Notation length := Datatypes.length.
Open Scope nat_scope.

Lemma rsolid_shape n P c e : P e = None -> (forall q, ron n q -> adj e q \/ diag e q -> P q = Some c) -> reye_shape n P c e.
Proof.
  intros He H. split; [exact He|]. split; [intros q Hq A; apply H; auto|]. left. exists directions.
  split; [repeat constructor; set_solver|]. split; [reflexivity|].
  intros d. split; [|tauto]. intros Hd. split; [exact Hd|]. intros q Hq C. apply H; [exact Hq|]. right. eapply corner_diag; eassumption.
Qed.

(** either way of playing on *)
Definition rplays_on (dbg : bool) (n : size_t) (g g' : game) : Prop := rplayout_step dbg n g g' \/ offered_step dbg g g'.

Lemma rsearch_no_eye dbg n b w g ms x y : Nat.divide (snd n) (fst n) -> rgreach dbg n b w g -> is_over g = false -> legals_moves dbg g = Ok ms -> MPlay x y ∈ ms ->
  ron n (x, y) /\ check_eye dbg g ((x, y), gm_turn g) = Ok false.
Proof.
  intros Hd HG HO E Hm. pose proof (rgreach_inv _ _ _ _ _ Hd HG) as G. pose proof (rgi_wf _ _ _ _ G) as W.
  unfold legals_moves in E. apply bind_ok in E as (l & E & Em). rewrite HO in Em. injection Em as <-.
  assert (Hp : (x, y) ∈ l).
  { destruct l as [|p l]; [apply elem_of_list_singleton in Hm; discriminate|]. cbn [List.map] in Hm.
    apply elem_of_list_In in Hm. apply (in_map_iff (fun p : coord => MPlay (fst p) (snd p)) (p :: l)) in Hm as (q & Eq & Hq).
    injection Eq as <- <-. rewrite <- surjective_pairing. apply elem_of_list_In, Hq. }
  destruct (proj1 (proj2 (rlegals_checks _ _ _ _ _ _ _ G E) _) Hp) as [Hsq Ec]. pose proof (square_on n _ (rwf_n n _ W) Hsq) as Hon. split; [exact Hon|].
  destruct (rcheck_point_by_ok dbg n g (x, y) (N.lor (flag_illegal (gm_rule g)) FILLEYE) W (rgi_hist _ _ _ _ G) Hon) as [[E' _]|(e & E' & HT)]; rewrite Ec in E'; [discriminate|].
  injection E' as <-. apply HT. unfold flag_contains. apply N.eqb_eq. apply N.bits_inj. intros i. rewrite N.land_spec, N.lor_spec.
  destruct (N.testbit FILLEYE i), (N.testbit (flag_illegal (gm_rule g)) i); reflexivity.
Qed.

Section Solid.
  Variables (dbg : bool) (n : size_t) (c : color) (X F : list coord).
  Hypothesis Hd : Nat.divide (snd n) (fst n).
  Hypothesis around : forall e q, e ∈ F -> ron n q -> adj e q \/ diag e q -> q ∈ X.

  Lemma rplays_on_spares b w g g' : rgreach dbg n b w g -> ralive n (position g) c X (List.map (fun e => [e]) F) ->
    rplays_on dbg n g g' -> rspares dbg n c (List.map (fun e => [e]) F) g g'.
  Proof using around Hd.
    intros HG (HX & _ & _) H.
    assert (K : forall e, e ∈ F -> position g e = None -> reye_shape n (position g) c e).
    { intros e He Ee. apply rsolid_shape; [exact Ee|]. intros q Hq A. apply HX. eapply around; eassumption. }
    assert (M : forall x y, ron n (x, y) -> try_play dbg g (MPlay x y) = Ok (g', Accepted) -> ~ reye_shape n (position g) (gm_turn g) (x, y) ->
      rspares dbg n c (List.map (fun e => [e]) F) g g').
    { intros x y Hon E Hn. left. exists x, y, Accepted. split; [exact Hon|]. split; [exact E|]. intros Ht _ R HR Hr.
      apply elem_of_list_In, in_map_iff in HR. destruct HR as (e & <- & He). apply elem_of_list_singleton in Hr. subst e. apply elem_of_list_In in He.
      apply Hn. rewrite Ht. apply K; [exact He|]. apply (raccepted_step _ _ _ _ _ _ _ _ (rgreach_inv _ _ _ _ _ Hd HG) Hon E). }
    pose proof (rwf_n n _ (rgi_wf _ _ _ _ (rgreach_inv _ _ _ _ _ Hd HG))) as Fn.
    destruct H as [[x y HO Hsq E Hn|l HO El Hl E]|[ms m HO El Hm E]].
    - exact (M x y (square_on n _ Fn Hsq) E Hn).
    - right. left. exists Accepted. exact E.
    - destruct m as [|r|x y].
      + right. left. exists Accepted. exact E.
      + right. right. left. exists r, Accepted. exact E.
      + destruct (rsearch_no_eye _ _ _ _ _ _ _ _ Hd HG HO El Hm) as [Hon Ee]. apply (M x y Hon E). intros Hs.
        destruct (reye_exact dbg n g (x, y) (gm_turn g) (rgi_wf _ _ _ _ (rgreach_inv _ _ _ _ _ Hd HG)) Hon) as (v & Ev & Hv). apply Hv in Hs. subst v. pose proof (eq_trans (eq_sym Ev) Ee). discriminate.
  Qed.
End Solid.

Lemma rsolid_life dbg n b w c p e1 e2 g g' : Nat.divide (snd n) (fst n) -> rgreach dbg n b w g -> forbids_suicide (gm_rule g) = true ->
  ron n p -> position g p = Some c -> e1 <> e2 -> rsolid_eye n (position g) p e1 -> rsolid_eye n (position g) p e2 ->
  rtc (rplays_on dbg n) g g' -> position g' p = Some c.
Proof.
  intros Hd HG HS Hp Ep Hne [L1 N1] [L2 N2] H.
  set (P := position g) in *.
  set (X := p :: filter (fun q => (adj e1 q \/ diag e1 q) \/ (adj e2 q \/ diag e2 q)) (rpoints n)).
  assert (HN : forall q, ron n q -> (adj e1 q \/ diag e1 q) \/ (adj e2 q \/ diag e2 q) -> rconnected n P p q) by (intros q Hq [A|A]; auto).
  assert (HX : forall x, x ∈ X -> ron n x /\ P x = Some c /\ rconnected n P p x).
  { intros x Hx. unfold X in Hx. apply elem_of_cons in Hx. destruct Hx as [->|Hx]; [repeat split; auto; try apply Hp; apply rtc_refl|].
    apply elem_of_list_filter in Hx. destruct Hx as [A Hx]. apply elem_of_rpoints in Hx. pose proof (HN x Hx A) as C.
    split; [exact Hx|]. split; [|exact C]. rewrite <- (rconnected_color _ _ _ _ C). exact Ep. }
  assert (IX : forall e q, e ∈ [e1; e2] -> ron n q -> adj e q \/ diag e q -> q ∈ X).
  { intros e q He Hq A. unfold X. apply elem_of_cons. right. apply elem_of_list_filter. split; [|apply elem_of_rpoints; exact Hq].
    apply elem_of_cons in He. destruct He as [->|He]; [left; exact A|]. apply elem_of_list_singleton in He. subst e. right. exact A. }
  assert (V : forall x e, x ∈ X -> rliberty n P p e -> rvital n P x [e]).
  { intros x e Hx (Hon & He & q & Cq & Aq) z Hz _. apply elem_of_list_singleton in Hz. subst z.
    split; [exact Hon|]. split; [exact He|]. exists q. split; [|exact Aq]. eapply rtc_transitive; [|exact Cq].
    apply rconnected_sym, (HX x Hx). }
  assert (R : forall e, rliberty n P p e -> e ∈ [e1; e2] -> rclosed_region n P c X [e]).
  { intros e (Hon & He & _) Hee. split; [|split].
    - intros z Hz. apply elem_of_list_singleton in Hz. subst z. split; [exact Hon|congruence].
    - exists e. split; [apply elem_of_list_singleton; reflexivity|exact He].
    - intros z q Hz Hq A. apply elem_of_list_singleton in Hz. subst z. right. apply (IX e q Hee Hq). auto. }
  assert (I1 : e1 ∈ [e1; e2]) by left. assert (I2 : e2 ∈ [e1; e2]) by (right; left).
  assert (HA : ralive n P c X (List.map (fun e => [e]) [e1; e2])).
  { split; [intros x Hx; destruct (HX x Hx) as (A & B & _); auto|]. split.
    - intros S HS'. cbn in HS'. apply elem_of_cons in HS'. destruct HS' as [->|HS']; [apply R; auto|].
      apply elem_of_list_singleton in HS'. subst S. apply R; auto.
    - intros x Hx. exists [e1], [e2]. split; [left|]. split; [right; left|].
      split; [|split; apply V; assumption]. intros z Hz1 Hz2. apply elem_of_list_singleton in Hz1, Hz2. congruence. }
  assert (PX : p ∈ X) by left.
  clearbody X. subst P. clear - Hd HG HS HA H IX PX. revert b w HG HS HA. induction H as [g|g g1 g2 S _ IH]; intros b w HG HS HA.
  - apply HA, PX.
  - destruct (rspares_step _ _ _ _ _ _ _ _ _ Hd HG HS HA (rplays_on_spares _ _ _ _ _ Hd IX _ _ _ _ HG HA S)) as ((b1 & w1 & G1) & S1 & A1). exact (IH _ _ G1 S1 A1).
Qed.

Lemma rplayout_steps dbg n shuffles fuel : Nat.divide (snd n) (fst n) -> (forall i l, shuffles i l ≡ₚ l) -> forall i b w g g', rgreach dbg n b w g ->
  playout fuel i shuffles dbg g = Ok g' -> rtc (rplayout_step dbg n) g g'.
Proof.
  intros Hd Hp. induction fuel as [|fuel IH]; intros i b w g g' HG E.
  - cbn [playout] in E. destruct (is_over g); [injection E as ->; apply rtc_refl|discriminate].
  - rewrite playout_unfold in E. destruct (is_over g) eqn:HO; [injection E as ->; apply rtc_refl|].
    destruct (rfast_step dbg n shuffles Hd Hp b w g i HG HO) as [[E' _]|(g1 & b1 & w1 & E' & HS & HG1 & _)]; rewrite E' in E; [discriminate|].
    cbn [bind] in E. eapply rtc_l; [exact HS|]. exact (IH (S i) b1 w1 g1 g' HG1 E).
Qed.

Theorem rplayouts_spare dbg n b w c p e1 e2 g g' shuffles fuel i : Nat.divide (snd n) (fst n) -> rgreach dbg n b w g -> forbids_suicide (gm_rule g) = true ->
  ron n p -> position g p = Some c -> e1 <> e2 -> rsolid_eye n (position g) p e1 -> rsolid_eye n (position g) p e2 ->
  (forall j l, shuffles j l ≡ₚ l) -> playout fuel i shuffles dbg g = Ok g' -> position g' p = Some c.
Proof.
  intros Hd HG HS Hp Ep Hne S1 S2 Hs E. apply (rsolid_life dbg n b w c p e1 e2 g g'); auto.
  pose proof (rplayout_steps dbg n shuffles fuel Hd Hs i b w g g' HG E) as H. clear - H.
  induction H as [|a b c S _ IH]; [apply rtc_refl|]. eapply rtc_l; [left; exact S|exact IH].
Qed.

Lemma rsolid_moves n P p q e : rconnected n P p q -> rsolid_eye n P p e -> rsolid_eye n P q e.
Proof.
  intros C [(Ho & He & z & Cz & A) N]. apply rconnected_sym in C. split.
  - split; [exact Ho|]. split; [exact He|]. exists z. split; [exact (rtc_transitive _ _ _ C Cz)|exact A].
  - intros x Hx Ax. exact (rtc_transitive _ _ _ C (N x Hx Ax)).
Qed.

Lemma rplay_out_steps dbg n search fuel g0 : Nat.divide (snd n) (fst n) -> answers_offered dbg search g0 -> forall i b w g g', rtc (offered_step dbg) g0 g -> rgreach dbg n b w g ->
  play_out fuel i search dbg g = Ok g' -> rtc (offered_step dbg) g g' /\ exists b' w', rgreach dbg n b' w' g'.
Proof.
  intros Hd Hs. induction fuel as [|fuel IH]; intros i b w g g' HR HG E.
  - cbn [play_out] in E. destruct (is_over g); [injection E as ->; split; [apply rtc_refl|eauto]|discriminate].
  - rewrite play_out_unfold in E. destruct (is_over g) eqn:HO; [injection E as ->; split; [apply rtc_refl|eauto]|].
    destruct (rsearch_one dbg n search g0 Hd Hs b w g i HR HG HO) as [[E' _]|(g1 & b1 & w1 & E' & HS & HG1 & _)]; rewrite E' in E; [discriminate|].
    cbn [bind] in E. destruct (IH (S i) b1 w1 g1 g' (rtc_r _ _ _ HR HS) HG1 E) as [R K]. split; [|exact K]. eapply rtc_l; [exact HS|exact R].
Qed.

Theorem rnever_dead dbg n b w c p e1 e2 g search fuel k l : Nat.divide (snd n) (fst n) -> rgreach dbg n b w g -> forbids_suicide (gm_rule g) = true ->
  ron n p -> position g p = Some c -> e1 <> e2 -> rsolid_eye n (position g) p e1 -> rsolid_eye n (position g) p e2 ->
  answers_offered dbg search g ->
  dead_stones fuel search dbg g = Ok l -> group_no (gm_goban g) p = Some k -> k ∉ l.
Proof.
  intros Hd HG HS Hp Ep Hne S1 S2 Hs E Ek Hk.
  destruct Hd as [kk Hkk]. destruct (rfloating_exact dbg n b w g kk Hkk HG) as (fl & Ef & _). assert (Hd : Nat.divide (snd n) (fst n)) by (exists kk; exact Hkk). destruct (rfloating_live dbg n b w g fl Hd HG Ef) as [Hsort Hlive].
  unfold dead_stones in E. rewrite Ef in E. cbn [bind] in E. apply bind_ok in E as (h & Eh & E).
  destruct (rplay_out_steps dbg n search fuel g Hd Hs 0 b w g h (rtc_refl _ _) HG Eh) as (R & b' & w' & HH).
  destruct (rcompare_ok dbg n b w b' w' g h fl Hd HG HH Hlive Hsort) as (l' & El & _ & Hl). rewrite E in El. injection El as <-.
  destruct (proj1 (Hl k) Hk) as (_ & q & Hq & Eq & F). apply F.
  destruct (rect_groups dbg n b w g p Hd HG Hp) as (K & _); [congruence|].
  assert (C : rconnected n (position g) p q) by (apply K; congruence).
  assert (Ec : position g q = Some c) by (rewrite <- (rconnected_color _ _ _ _ C); exact Ep). rewrite Ec.
  apply (rsolid_life dbg n b w c q e1 e2 g h); auto; [eapply rsolid_moves; eassumption|eapply rsolid_moves; eassumption|].
  clear - R. induction R as [|a b c S _ IH]; [apply rtc_refl|]. eapply rtc_l; [right; exact S|exact IH].
Qed.

(** every group that is reported is next to [m] eyes of the square, [k m] being at least three *)
Theorem rreported_have_eyes dbg n b w g k search fuel i l : fst n = (k * snd n)%nat -> rgreach dbg n b w g ->
  answers_offered dbg search g ->
  dead_stones fuel search dbg g = Ok l -> i ∈ l ->
  exists m, (3 <= k * m)%nat /\ card (fun p => in_square n p /\ rsome_eye n g p /\ rnear_group n (gm_goban g) i p) m.
Proof.
  intros Hk HG Hs E Hi. assert (Hd : Nat.divide (snd n) (fst n)) by (exists k; exact Hk).
  destruct (rfloating_exact dbg n b w g k Hk HG) as (fl & Ef & _ & Hfl). destruct (rfloating_live dbg n b w g fl Hd HG Ef) as [Hsort Hlive].
  unfold dead_stones in E. rewrite Ef in E. cbn [bind] in E. apply bind_ok in E as (h & Eh & E).
  destruct (rplay_out_steps dbg n search fuel g Hd Hs 0 b w g h (rtc_refl _ _) HG Eh) as (R & b' & w' & HH).
  destruct (rcompare_ok dbg n b w b' w' g h fl Hd HG HH Hlive Hsort) as (l' & El & _ & Hl). rewrite E in El. injection El as <-.
  destruct (proj1 (Hl i) Hi) as [Hf _]. apply Hfl in Hf as (_ & m & Hm & Hc). eauto.
Qed.
