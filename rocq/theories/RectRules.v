(** Consequences of the rules, on boards of any size. *)
From stdpp Require Import relations.
From Verif Require Import MonadFacts Spec Goban BitsetFacts CoordFacts Struct Push Inv Remove Capture Bridge GameFacts RulesFacts KoFacts.
From Verif Require Import RectSpec RectCoord RectInv RectRemove RectCapture RectBridge RectGame.
From Coq Require Import Lia.

Lemma rstone_group n g p : rwf n g -> ron n p -> pos_of g p <> None ->
  exists k grp, cell g (ridx n p) = Some k /\ live g k = Some grp /\ pos_of g p = Some (g_color grp).
Proof.
  intros W Hp H. rewrite (rpos_of_col n g p W Hp) in *. destruct (col g (ridx n p)) as [c|] eqn:E; [|contradiction].
  apply col_Some_inv in E as (k & grp & H1 & H2 & H3). exists k, grp. split; [exact H1|]. split; [exact H2|congruence].
Qed.

Lemma rtaken_color n P p c q : rtaken n P p c q -> P q = Some (opp c).
Proof. intros (t & _ & _ & H & Hc & _). rewrite <- (rconnected_same n P t q Hc). exact H. Qed.

Lemma rtaken_on n P p c q : rtaken n P p c q -> ron n q.
Proof. intros (t & Ht & _ & _ & Hc & _). exact (rconnected_on n P t q Ht Hc). Qed.

Lemma rcleared_det n (D D' : coord -> Prop) P P' Q Q' :
  (forall q, ron n q -> D q <-> D' q) -> rsame_pos n P P' ->
  rcleared n D P Q -> rcleared n D' P' Q' -> rsame_pos n Q Q'.
Proof.
  intros HD HP H H' q Hq. destruct (mcolor_dec (Q q) (Q' q)) as [|Hne]; [assumption|]. exfalso.
  destruct (H q Hq) as [A1 A2]. destruct (H' q Hq) as [B1 B2].
  assert (N : ~ D q).
  { intros Hd. apply Hne. rewrite A1, B1; [reflexivity|apply HD; assumption|assumption]. }
  apply Hne. rewrite A2, B2; [apply HP, Hq| |exact N]. intros Hd. apply N, HD; assumption.
Qed.

Lemma rgo_move_det s n P P' p c R R' :
  rsame_pos n P P' -> rgo_move s n P p c R -> rgo_move s n P' p c R' -> rsame_pos n R R'.
Proof.
  intros HP (Q & H1 & H2) (Q' & H1' & H2').
  assert (HQ : rsame_pos n Q Q').
  { eapply rcleared_det; [|apply rput_ext, HP|exact H1|exact H1'].
    intros q _. split; apply rtaken_ext; [|apply rsame_pos_sym]; apply rput_ext, HP. }
  pose proof (rsame_pos_sym _ _ _ HQ) as HQ'.
  eapply rcleared_det; [|exact HQ|exact H2|exact H2'].
  intros q _. cbn. split; intros (E & Hb & Hc); (split; [exact E|]); split.
  - intros Hb'. apply Hb, (rbreathes_ext n Q Q' p HQ), Hb'.
  - apply (rconnected_ext n Q Q' p q HQ), Hc.
  - intros Hb'. apply Hb, (rbreathes_ext n Q Q' p HQ), Hb'.
  - apply (rconnected_ext n Q' Q p q HQ'), Hc.
Qed.

(** ** Chains after a stone has been put *)

Section Put.
  Context (n : size_t) (P : pos) (p : coord) (c : color).
  Hypothesis Hp : ron n p.
  Hypothesis He : P p = None.
  Let P' := put P p c.

  Lemma rput_at : P' p = Some c.
  Proof. unfold P', put. destruct (decide (p = p)); [reflexivity|contradiction]. Qed.
  Lemma rput_other q : q <> p -> P' q = P q.
  Proof. intros H. unfold P', put. destruct (decide (q = p)); [contradiction|reflexivity]. Qed.
  Lemma rput_none q : P' q = None <-> q <> p /\ P q = None.
  Proof. unfold P', put. destruct (decide (q = p)) as [->|]; split; [discriminate|tauto|tauto|tauto]. Qed.
  Lemma rput_opp q : P' q = Some (opp c) <-> P q = Some (opp c).
  Proof.
    unfold P', put. destruct (decide (q = p)) as [->|]; [|tauto]. rewrite He.
    split; [|discriminate]. intros [= H]. destruct (opp_ne c). congruence.
  Qed.

  Lemma rconn_put a b : P a <> None -> rconnected n P a b -> rconnected n P' a b.
  Proof.
    intros Ha H. induction H as [|a b d (H1 & H2 & H3 & H4) _ IH]; [apply rtc_refl|].
    eapply rtc_l; [|apply IH; congruence]. split; [exact H1|]. split; [exact H2|]. split; [exact H3|].
    rewrite !rput_other by (intros ->; congruence). exact H4.
  Qed.

  Lemma rconn_put_opp a b : P a = Some (opp c) -> rconnected n P' a b <-> rconnected n P a b.
  Proof.
    intros Ha. split; [|apply rconn_put; congruence].
    intros H. apply rput_opp in Ha. induction H as [|a b d (H1 & H2 & H3 & H4) _ IH]; [apply rtc_refl|].
    eapply rtc_l; [|apply IH; congruence]. split; [exact H1|]. split; [exact H2|]. split; [exact H3|].
    rewrite H4 in Ha. pose proof (proj1 (rput_opp b) Ha). rewrite <- H4 in Ha. pose proof (proj1 (rput_opp a) Ha). congruence.
  Qed.

  Lemma rconn_put_own q : rconnected n P' p q <-> q = p \/ exists t, ron n t /\ adj p t /\ P t = Some c /\ rconnected n P t q.
  Proof.
    split.
    - intros H. unfold rconnected in H. revert q H. refine (rtc_ind_r _ _ _ _); [tauto|]. intros x q _ (H1 & H2 & H3 & H4) IH.
      assert (Hx : P' x = Some c).
      { destruct IH as [->|(t & T1 & T2 & T3 & T4)]; [apply rput_at|].
        rewrite rput_other; [rewrite <- (rconnected_same n P t x T4); exact T3|].
        intros ->. rewrite (rconnected_same n P t p T4) in T3. congruence. }
      destruct (decide (q = p)) as [->|Hq]; [tauto|]. right.
      assert (Pq : P q = Some c) by (rewrite <- (rput_other q Hq); congruence).
      destruct IH as [->|(t & T1 & T2 & T3 & T4)].
      + exists q. split; [exact H2|]. split; [exact H3|]. split; [exact Pq|apply rtc_refl].
      + exists t. split; [exact T1|]. split; [exact T2|]. split; [exact T3|]. eapply rtc_r; [exact T4|].
        split; [exact H1|]. split; [exact H2|]. split; [exact H3|].
        rewrite <- (rconnected_same n P t x T4). congruence.
    - intros [->|(t & T1 & T2 & T3 & T4)]; [apply rtc_refl|].
      eapply rtc_l; [|apply (rconn_put t q); [congruence|exact T4]].
      split; [exact Hp|]. split; [exact T1|]. split; [exact T2|]. rewrite rput_at, rput_other; [congruence|]. intros ->. congruence.
  Qed.

  (** chains of colour [c] that do not touch [p] *)
  Lemma rconn_put_same a b : P a = Some c -> ~ rconnected n P' p a -> rconnected n P' a b <-> rconnected n P a b.
  Proof.
    intros Ha Hna. split; [|apply rconn_put; congruence].
    intros H. unfold rconnected in H. revert b H. refine (rtc_ind_r _ _ _ _); [apply rtc_refl|]. intros x b _ (H1 & H2 & H3 & H4) IH.
    eapply rtc_r; [exact IH|]. split; [exact H1|]. split; [exact H2|]. split; [exact H3|].
    assert (Hxp : x <> p).
    { intros ->. rewrite (rconnected_same n P a p IH) in Ha. congruence. }
    rewrite (rput_other x Hxp) in H4. destruct (decide (b = p)) as [->|Hb]; [|rewrite (rput_other b Hb) in H4; exact H4].
    exfalso. apply Hna. apply rconn_put_own. right. exists x. split; [exact H1|]. split; [apply adj_sym, H3|].
    rewrite <- (rconnected_same n P a x IH). split; [exact Ha|]. apply rconnected_sym, IH.
  Qed.

  Lemma rlib_put_opp a l : P a = Some (opp c) -> rliberty n P' a l <-> l <> p /\ rliberty n P a l.
  Proof.
    intros Ha. unfold rliberty. split.
    - intros (H1 & H2 & q & H3 & H4). apply rput_none in H2 as [H2 H2']. split; [exact H2|]. split; [exact H1|]. split; [exact H2'|].
      exists q. split; [apply rconn_put_opp; assumption|exact H4].
    - intros (H0 & H1 & H2 & q & H3 & H4). split; [exact H1|]. split; [apply rput_none; tauto|].
      exists q. split; [apply rconn_put_opp; assumption|exact H4].
  Qed.

  Lemma rbreathes_put_opp a : P a = Some (opp c) -> rbreathes n P' a <-> exists l, l <> p /\ rliberty n P a l.
  Proof. intros Ha. unfold rbreathes. split; intros [l H]; exists l; apply (rlib_put_opp a l Ha); assumption. Qed.

  Lemma rbreathes_put_own : rbreathes n P' p <->
    (exists l, ron n l /\ adj p l /\ P l = None) \/
    (exists t l, ron n t /\ adj p t /\ P t = Some c /\ l <> p /\ rliberty n P t l).
  Proof.
    split.
    - intros (l & H1 & H2 & q & H3 & H4). apply rput_none in H2 as [H2 H2'].
      apply rconn_put_own in H3 as [->|(t & T1 & T2 & T3 & T4)].
      + left. exists l. tauto.
      + right. exists t, l. split; [exact T1|]. split; [exact T2|]. split; [exact T3|]. split; [exact H2|].
        split; [exact H1|]. split; [exact H2'|]. exists q. tauto.
    - intros [(l & H1 & H2 & H3)|(t & l & T1 & T2 & T3 & H0 & H1 & H2 & q & H3 & H4)]; exists l.
      + split; [exact H1|]. split.
        * apply rput_none. split; [|exact H3]. intros ->. unfold adj in H2. lia.
        * exists p. split; [apply rtc_refl|exact H2].
      + split; [exact H1|]. split; [apply rput_none; tauto|]. exists q. split; [|exact H4].
        apply rconn_put_own. right. exists t. tauto.
  Qed.

  Lemma rbreathes_put_same a : ron n a -> P a = Some c -> ~ rconnected n P' p a -> rbreathes n P a -> rbreathes n P' a.
  Proof.
    intros Hon Ha Hna (l & H1 & H2 & q & H3 & H4). exists l. split; [exact H1|]. split.
    - apply rput_none. split; [|exact H2]. intros ->. apply Hna, rconn_put_own. right. exists q.
      split; [exact (rconnected_on n P a q Hon H3)|]. split; [apply adj_sym, H4|].
      split; [rewrite <- (rconnected_same n P a q H3); exact Ha|apply rconnected_sym, H3].
    - exists q. split; [apply rconn_put_same; assumption|exact H4].
  Qed.
End Put.

Section Move.
  Context (n : size_t) (P : pos) (p : coord) (c : color).
  Hypothesis Hp : ron n p.
  Hypothesis He : P p = None.
  Let P' := put P p c.

  Lemma rnot_taken_own q : P' q = Some c -> ~ rtaken n P' p c q.
  Proof. intros H Ht. apply rtaken_color in Ht. destruct (opp_ne c). congruence. Qed.

  Lemma rcapture_breathes Q q : rcleared n (rtaken n P' p c) P' Q -> rtaken n P' p c q -> rbreathes n Q p.
  Proof.
    intros HQ (t & H1 & H2 & H3 & H4 & H5). exists t. split; [exact H1|]. split.
    - apply (HQ t H1). exists t. split; [exact H1|]. split; [exact H2|]. split; [exact H3|]. split; [apply rtc_refl|exact H5].
    - exists p. split; [apply rtc_refl|exact H2].
  Qed.

  Lemma rno_capture Q : rcleared n (rtaken n P' p c) P' Q -> (forall q, ron n q -> ~ rtaken n P' p c q) -> rsame_pos n Q P'.
  Proof. intros HQ H q Hq. apply (HQ q Hq), H, Hq. Qed.

  Lemma rsuicidal_iff : rsuicidal n P p c <-> (forall q, ron n q -> ~ rtaken n P' p c q) /\ ~ rbreathes n P' p.
  Proof.
    split.
    - intros (Q & HQ & Hb). assert (HT : forall q, ron n q -> ~ rtaken n P' p c q).
      { intros q Hq Ht. apply Hb. eapply rcapture_breathes; eassumption. }
      split; [exact HT|]. intros Hb'. apply Hb. apply (rbreathes_ext n Q P' p); [apply rno_capture; assumption|exact Hb'].
    - intros [HT Hb]. exists P'. split; [|exact Hb]. intros q Hq. split; [|reflexivity]. intros Ht. destruct (HT q Hq Ht).
  Qed.
End Move.

(** every chain next to the empty point [q] whose only liberty is [q] is a single stone *)
Definition rko_shape (n : size_t) (P : pos) (q : coord) : Prop :=
  forall t, ron n t -> adj q t -> P t <> None -> (forall l, rliberty n P t l -> l = q) ->
    forall t', rconnected n P t t' -> t' = t.

Lemma rgo_move_capture s n P p c R q :
  ron n q -> rtaken n (put P p c) p c q -> rgo_move s n P p c R ->
  rcleared n (rtaken n (put P p c) p c) (put P p c) R.
Proof.
  intros Hq Ht (Q & HQ & HR). eapply rcleared_ext; [reflexivity|apply rsame_pos_refl| |exact HQ].
  intros x Hx. symmetry. apply (HR x Hx). intros (_ & Hb & _). apply Hb. eapply rcapture_breathes; eassumption.
Qed.

