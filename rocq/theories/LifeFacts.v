(** Groups with two vital regions are never captured. *)
From stdpp Require Import relations.
From Verif Require Import LifeSpec.
From Verif Require Import MonadFacts Struct Push Inv Bridge GameFacts RulesFacts BoardFacts LegalFacts LegalsFacts ClaimFacts LongFacts.
From Coq Require Import Lia.

Local Notation length := Datatypes.length.
Open Scope nat_scope.

Lemma connected_on n P x y : on n x -> connected n P x y -> on n y.
Proof. intros Hx H. induction H as [|a b d (_ & Hb & _) _ IH]; auto. Qed.

Lemma connected_color n P x y : connected n P x y -> P x = P y.
Proof. induction 1 as [|a b d (_ & _ & _ & E) _ IH]; congruence. Qed.

Lemma connected_sym n P x y : connected n P x y -> connected n P y x.
Proof.
  induction 1 as [|a b d (Ha & Hb & A & E) _ IH]; [apply rtc_refl|].
  eapply rtc_r; [exact IH|]. repeat split; auto; try apply Ha; try apply Hb. unfold adj in *. lia.
Qed.

Lemma connected_keep n P Q x y : (forall a, on n a -> connected n P x a -> Q a = P a) -> on n x ->
  connected n P x y -> connected n Q x y.
Proof.
  intros K Hx H. revert K Hx. induction H as [|a b d S H IH]; intros K Hx; [apply rtc_refl|].
  destruct S as (Ha & Hb & A & E). eapply rtc_l; [split; [exact Ha|split; [exact Hb|split; [exact A|]]]|apply IH; [|exact Hb]].
  - rewrite (K a Ha (rtc_refl _ _)), (K b Hb); [exact E|]. apply rtc_once. repeat split; auto; try apply Ha; try apply Hb.
  - intros z Hz Cz. apply K; [exact Hz|]. eapply rtc_l; [|exact Cz]. repeat split; auto; try apply Ha; try apply Hb.
Qed.

(** a chain that starts in a region stays there *)
Lemma region_chain n P c (X R : list coord) p q :
  (forall p q, p ∈ R -> on n q -> adj p q -> q ∈ R \/ q ∈ X) ->
  (forall x, x ∈ X -> P x = Some c) -> P p <> Some c ->
  p ∈ R -> connected n P p q -> q ∈ R.
Proof.
  intros HR HX Hp Hr H. revert Hp Hr. induction H as [|a b d (Ha & Hb & A & E) _ IH]; intros Hp Hr; [exact Hr|].
  apply IH; [congruence|]. destruct (HR a b Hr Hb A) as [G|G]; [exact G|]. apply HX in G. congruence.
Qed.

Lemma put_other P q c p : p <> q -> put P q c p = P p.
Proof. intros H. unfold put. rewrite decide_False; [reflexivity|exact H]. Qed.
Lemma put_here P q c : put P q c q = Some c.
Proof. unfold put. rewrite decide_True; reflexivity. Qed.
Lemma opp_ne c : opp c <> c.
Proof. destruct c; discriminate. Qed.

Lemma vital_stays n P Q x R : on n x -> (forall a, on n a -> connected n P x a -> Q a = P a) ->
  (forall p, p ∈ R -> Q p = None -> P p = None) -> vital n P x R -> vital n Q x R.
Proof.
  intros Hx K E V p Hp HQ. destruct (V p Hp (E p Hp HQ)) as (Hon & _ & q & C & A).
  split; [exact Hon|]. split; [exact HQ|]. exists q. split; [|exact A]. exact (connected_keep _ _ _ _ _ K Hx C).
Qed.

Lemma alive_move n P c X F q c' P' : alive n P c X F -> on n q -> P q = None ->
  (c' = c -> forall R, R ∈ F -> q ∉ R) -> ~ suicidal n P q c' -> go_move false n P q c' P' -> alive n P' c X F.
Proof.
  intros (HX & HF & HV) Hq Eq Hc Hs (Q & C1 & C2).
  assert (C : cleared n (taken n (put P q c') q c') (put P q c') P').
  { intros p Hp. destruct (C1 p Hp) as [A B], (C2 p Hp) as [_ D]. rewrite D by (intros [G _]; discriminate). auto. }
  assert (Hns : ~ ~ breathes n P' q) by (intros G; apply Hs; exists P'; auto). clear Q C1 C2 Hs.
  assert (NX : forall x, x ∈ X -> x <> q) by (intros x Hx ->; destruct (HX q Hx); congruence).
  assert (PX : forall x, x ∈ X -> put P q c' x = Some c) by (intros x Hx; rewrite put_other by auto; apply HX, Hx).
  assert (NC : forall x a, x ∈ X -> connected n P x a -> P a = Some c /\ a <> q).
  { intros x a Hx Ca. pose proof (connected_color _ _ _ _ Ca) as E. destruct (HX x Hx) as [_ E']. split; [congruence|]. intros ->. congruence. }
  destruct (decide (c' = c)) as [->|Hcc].
  - (* own move outside the regions *)
    specialize (Hc eq_refl).
    assert (K : forall a, on n a -> P a = Some c -> P' a = P a).
    { intros a Ha E. assert (a <> q) by congruence. destruct (C a Ha) as [_ B]. rewrite B; [apply put_other; assumption|].
      intros T. apply taken_color in T. rewrite put_other in T by assumption. rewrite E in T. injection T as T. exact (opp_ne _ (eq_sym T)). }
    assert (KR : forall R p, R ∈ F -> p ∈ R -> P' p = P p).
    { intros R p HR Hp. destruct (HF R HR) as (R1 & R2 & R3). destruct (R1 p Hp) as [Hon Hpc].
      assert (Np : p <> q) by (intros ->; exact (Hc R HR Hp)).
      destruct (C p Hon) as [_ B]. rewrite B; [apply put_other; exact Np|].
      intros (t & Ht & A & Et & Ct & _). apply connected_sym in Ct.
      assert (Tr : t ∈ R). { eapply (region_chain n (put P q c) c X R p t); eauto. rewrite put_other by exact Np. exact Hpc. }
      destruct (R3 t q Tr Hq) as [G|G]; [unfold adj in *; lia|exact (Hc R HR G)|exact (NX q G eq_refl)]. }
    split; [|split].
    + intros x Hx. destruct (HX x Hx) as [A B]. split; [exact A|]. rewrite K; assumption.
    + intros R HR. destruct (HF R HR) as (R1 & (p & Hp & Ep) & R3). split; [|split; [|exact R3]].
      * intros a Ha. rewrite (KR R a HR Ha). exact (R1 a Ha).
      * exists p. rewrite (KR R p HR Hp). auto.
    + intros x Hx. destruct (HV x Hx) as (R1 & R2 & H1 & H2 & D & V1 & V2). exists R1, R2.
      assert (forall R, R ∈ F -> vital n P x R -> vital n P' x R).
      { intros R HR. apply vital_stays; [apply HX, Hx| |].
        - intros a Ha Ca. apply K; [exact Ha|]. apply (NC x a Hx Ca).
        - intros p Hp. rewrite (KR R p HR Hp). auto. }
      auto 10.
  - (* a move of the opponent *)
    assert (Ec : c' = opp c) by (destruct c, c'; try reflexivity; contradiction). subst c'. clear Hc.
    assert (Kput : forall x a, x ∈ X -> connected n P x a -> put P q (opp c) a = P a) by (intros x a Hx Ca; apply put_other; apply (NC x a Hx Ca)).
    assert (K : forall x a, x ∈ X -> on n a -> connected n P x a -> P' a = P a).
    { intros x a Hx Ha Ca. destruct (C a Ha) as [_ B]. rewrite B; [eapply Kput; eassumption|].
      intros (t & Ht & A & Et & Ct & Nb). apply Nb.
      assert (Cx : connected n (put P q (opp c)) t x).
      { eapply rtc_transitive; [exact Ct|]. apply connected_sym. eapply connected_keep; [|apply HX, Hx|exact Ca]. intros z _ Cz. eapply Kput; eassumption. }
      destruct (HV x Hx) as (R1 & R2 & H1 & H2 & D & V1 & V2).
      assert (exists R, R ∈ F /\ q ∉ R /\ vital n P x R) as (R & HR & Nq & V).
      { destruct (decide (q ∈ R1)) as [G|G]; [exists R2; auto|exists R1; auto]. }
      destruct (HF R HR) as (_ & (p & Hp & Ep) & _).
      destruct (V p Hp Ep) as (Hon & _ & y & Cy & Ay).
      exists p. split; [exact Hon|]. split; [rewrite put_other; [exact Ep|intros ->; contradiction]|].
      exists y. split; [|exact Ay]. eapply rtc_transitive; [exact Cx|]. eapply connected_keep; [|apply HX, Hx|exact Cy].
      intros z _ Cz. eapply Kput; eassumption. }
    assert (KX : forall x, x ∈ X -> P' x = Some c).
    { intros x Hx. rewrite (K x x Hx); [apply HX, Hx|apply HX, Hx|apply rtc_refl]. }
    assert (KR : forall R p, R ∈ F -> p ∈ R -> P' p = put P q (opp c) p).
    { intros R p HR Hp. destruct (HF R HR) as (R1 & _ & _). destruct (R1 p Hp) as [Hon Hpc].
      destruct (C p Hon) as [_ B]. apply B. intros T. apply taken_color in T.
      unfold put in T. case_decide; [injection T as T; destruct c; discriminate|]. apply Hpc. rewrite T. destruct c; reflexivity. }
    assert (KE : forall R p, R ∈ F -> p ∈ R -> P' p = None -> P p = None).
    { intros R p HR Hp. rewrite (KR R p HR Hp). unfold put. case_decide; [discriminate|auto]. }
    assert (KC : forall R p, R ∈ F -> p ∈ R -> P' p <> Some c).
    { intros R p HR Hp. rewrite (KR R p HR Hp). destruct (HF R HR) as (R1 & _). destruct (R1 p Hp) as [_ G].
      unfold put. case_decide; [intros T; injection T as T; exact (opp_ne _ T)|exact G]. }
    split; [|split].
    + intros x Hx. split; [apply HX, Hx|auto].
    + intros R HR. destruct (HF R HR) as (R1 & (p0 & Hp0 & Ep0) & R3). split; [|split; [|exact R3]].
      * intros a Ha. split; [apply R1, Ha|eapply KC; eassumption].
      * destruct (Exists_dec (fun p => p <> q /\ P p = None) R) as [G|G].
        -- apply Exists_exists in G. destruct G as (p & Hp & Np & Ep). exists p. split; [exact Hp|]. rewrite (KR R p HR Hp), put_other; auto.
        -- exfalso. apply Hns. intros (l & Hl & El & y & Cy & Ay).
           assert (N : forall p, p ∈ R -> P p = None -> p = q).
           { intros p Hp Ep. destruct (decide (p = q)) as [|Np]; [assumption|]. exfalso. apply G. apply Exists_exists. exists p. auto. }
           assert (Hqr : q ∈ R) by (rewrite <- (N p0 Hp0 Ep0); exact Hp0).
           assert (Hy : y ∈ R) by (eapply (region_chain n P' c X R q y); eauto).
           destruct (R3 y l Hy Hl Ay) as [Hr|Hx]; [|apply KX in Hx; congruence].
           pose proof (N l Hr (KE R l HR Hr El)) as ->. rewrite (KR R q HR Hr), put_here in El. discriminate.
    + intros x Hx. destruct (HV x Hx) as (R1 & R2 & H1 & H2 & D & V1 & V2). exists R1, R2.
      assert (forall R, R ∈ F -> vital n P x R -> vital n P' x R).
      { intros R HR. apply vital_stays; [apply HX, Hx| |].
        - intros a Ha Ca. eapply K; eassumption.
        - intros p Hp. eapply KE; eassumption. }
      auto 10.
Qed.

Lemma spares_step dbg n c F b w g g' X : greach dbg n b w g -> forbids_suicide (gm_rule g) = true ->
  alive n (position g) c X F -> spares dbg n c F g g' ->
  (exists b' w', greach dbg n b' w' g') /\ forbids_suicide (gm_rule g') = true /\ alive n (position g') c X F.
Proof.
  intros HG HS HA [(x & y & v & Hon & E & Hc)|[(v & E)|[(r & v & E)|[->|(k & ->)]]]].
  - destruct (greach_try dbg n b w g (MPlay x y) g' v HG ltac:(intros ? ? [= <- <-]; exact Hon) E) as (b' & w' & HG' & _).
    split; [eauto|]. destruct (try_play_inv _ _ _ _ _ E) as [(e & -> & ->)|(-> & Hp & Ep)]; [auto|].
    destruct (accepted_step _ _ _ _ _ _ _ _ (greach_inv _ _ _ _ _ HG) Hon E) as (He & Hs & _ & M).
    rewrite suicide_bit in Hs, M. rewrite HS in Hs, M. cbn [negb] in Hs, M. split.
    + replace (gm_rule g') with (gm_rule g); [exact HS|]. cbn in Ep.
      destruct (history_insert _ _) as [h| |]; try discriminate. cbn in Ep.
      destruct (push_wth_feedback _ _ _ _) as [[[gb dead] added]| |]; try discriminate. cbn in Ep.
      destruct (game_remove_captured_stones _ _ _ _ _ _) as [[[gb' pris] ko]| |]; try discriminate. cbn in Ep.
      injection Ep as <-. reflexivity.
    + eapply alive_move; [exact HA|exact Hon|exact He| | |exact M].
      * intros Ht. apply Hc; auto.
      * destruct Hs as [G|G]; [discriminate|exact G].
  - destruct (greach_try dbg n b w g MPass g' v HG ltac:(intros ? ? ?; discriminate) E) as (b' & w' & HG' & _). split; [eauto|].
    destruct (try_play_inv _ _ _ _ _ E) as [(e & -> & ->)|(-> & Hp & Ep)]; [auto|].
    cbn in Ep. destruct (assert_ _) as [[]| |]; try discriminate. injection Ep as <-. auto.
  - destruct (greach_try dbg n b w g (MResign r) g' v HG ltac:(intros ? ? ?; discriminate) E) as (b' & w' & HG' & _). split; [eauto|].
    destruct (try_play_inv _ _ _ _ _ E) as [(e & -> & ->)|(-> & Hp & Ep)]; [auto|].
    cbn in Ep. injection Ep as <-. auto.
  - split; [exists b, w; apply gr_resume; exact HG|]. auto.
  - split; [exists b, w; apply gr_komi; exact HG|]. auto.
Qed.

Theorem benson dbg n b w c X F g g' : greach dbg n b w g -> forbids_suicide (gm_rule g) = true ->
  alive n (position g) c X F -> rtc (spares dbg n c F) g g' ->
  (forall x, x ∈ X -> position g' x = Some c) /\ alive n (position g') c X F.
Proof.
  intros HG HS HA H. revert b w HG HS HA. induction H as [g|g g1 g2 S _ IH]; intros b w HG HS HA.
  - split; [intros x Hx; apply HA, Hx|exact HA].
  - destruct (spares_step _ _ _ _ _ _ _ _ _ HG HS HA S) as ((b1 & w1 & G1) & S1 & A1). exact (IH _ _ G1 S1 A1).
Qed.

Global Instance adj_decision p q : Decision (adj p q).
Proof. unfold adj. apply _. Defined.

Theorem two_eyes dbg n b w c p e1 e2 g g' : greach dbg n b w g -> forbids_suicide (gm_rule g) = true ->
  on n p -> position g p = Some c -> e1 <> e2 ->
  liberty n (position g) p e1 -> liberty n (position g) p e2 ->
  (forall q, on n q -> adj e1 q \/ adj e2 q -> connected n (position g) p q) ->
  rtc (spares dbg n c [[e1]; [e2]]) g g' ->
  position g' p = Some c /\ position g' e1 <> Some (opp c) /\ position g' e2 <> Some (opp c).
Proof.
  intros HG HS Hp Ep Hne L1 L2 HN H.
  set (P := position g) in *. set (X := p :: filter (fun q => adj e1 q \/ adj e2 q) (points n)).
  assert (HX : forall x, x ∈ X -> on n x /\ P x = Some c /\ connected n P p x).
  { intros x Hx. unfold X in Hx. apply elem_of_cons in Hx. destruct Hx as [->|Hx]; [repeat split; auto; try apply Hp; apply rtc_refl|].
    apply elem_of_list_filter in Hx. destruct Hx as [A Hx]. apply elem_of_points in Hx. pose proof (HN x Hx A) as C.
    split; [exact Hx|]. split; [|exact C]. rewrite <- (connected_color _ _ _ _ C). exact Ep. }
  assert (V : forall x e, x ∈ X -> liberty n P p e -> vital n P x [e]).
  { intros x e Hx (Hon & He & q & Cq & Aq) z Hz _. apply elem_of_list_singleton in Hz. subst z.
    split; [exact Hon|]. split; [exact He|]. exists q. split; [|exact Aq]. eapply rtc_transitive; [|exact Cq].
    apply connected_sym, (HX x Hx). }
  assert (R : forall e, liberty n P p e -> e = e1 \/ e = e2 -> closed_region n P c X [e]).
  { intros e (Hon & He & _) Hee. split; [|split].
    - intros z Hz. apply elem_of_list_singleton in Hz. subst z. split; [exact Hon|congruence].
    - exists e. split; [apply elem_of_list_singleton; reflexivity|exact He].
    - intros z q Hz Hq A. apply elem_of_list_singleton in Hz. subst z. right. unfold X. apply elem_of_cons. right.
      apply elem_of_list_filter. split; [destruct Hee as [->| ->]; auto|apply elem_of_points; exact Hq]. }
  assert (HA : alive n P c X [[e1]; [e2]]).
  { split; [intros x Hx; destruct (HX x Hx) as (A & B & _); auto|]. split.
    - intros S HS'. apply elem_of_cons in HS'. destruct HS' as [->|HS']; [apply R; auto|].
      apply elem_of_list_singleton in HS'. subst S. apply R; auto.
    - intros x Hx. exists [e1], [e2]. split; [apply elem_of_cons; auto|]. split; [apply elem_of_cons; right; apply elem_of_list_singleton; reflexivity|].
      split; [|split; apply V; assumption]. intros z Hz1 Hz2. apply elem_of_list_singleton in Hz1, Hz2. congruence. }
  destruct (benson _ _ _ _ _ _ _ _ _ HG HS HA H) as [K A']. split; [apply K; unfold X; apply elem_of_cons; auto|].
  destruct A' as (_ & A' & _).
  assert (N : forall e, [e] ∈ [[e1]; [e2]] -> position g' e <> Some (opp c)).
  { intros e He. destruct (A' _ He) as (_ & (z & Hz & Ez) & _). apply elem_of_list_singleton in Hz. subst z. congruence. }
  split; apply N; [apply elem_of_cons; auto|apply elem_of_cons; right; apply elem_of_list_singleton; reflexivity].
Qed.
