(** Moves on boards whose width divides their height, after [RulesFacts.v]. *)
From stdpp Require Import relations sorting.
From Verif Require Import MonadFacts Spec Game Builder BitsetFacts CoordFacts Struct Push Inv Remove Capture Bridge GameFacts RulesFacts KoFacts BoardFacts CheckFacts LegalFacts.
From Verif Require Import RectSpec RectReach RectCoord RectInv RectRemove RectCapture RectBridge RectGame RectReachFacts RectRules RectBoard RectCheck RectEye RectVerdict.
From Coq Require Import Lia.

Lemma fits_points n : fits n -> (fst n * snd n <= 361)%nat.
Proof.
  intros (H1 & H2 & k & H3). assert (snd n <= 19)%nat by (destruct k; nia). nia.
Qed.

Definition rstones_in (n : size_t) (P : pos) : list stone :=
  List.map (fun p => (p, default Black (P p)))
    (List.filter (fun p => match P p with Some _ => true | None => false end) (rpoints n)).

Lemma relem_of_stones_in n P p c : (p, c) ∈ rstones_in n P <-> ron n p /\ P p = Some c.
Proof.
  unfold rstones_in. rewrite elem_of_lmap. split.
  - intros (q & E & H). apply elem_of_lfilter in H as [H1 H2]. injection E as -> ->. apply elem_of_rpoints in H1.
    split; [exact H1|]. destruct (P q); [reflexivity|discriminate].
  - intros [H1 H2]. exists p. rewrite H2. split; [reflexivity|]. apply elem_of_lfilter. rewrite H2.
    split; [apply elem_of_rpoints, H1|reflexivity].
Qed.

Lemma rstones_in_fst n P : (rstones_in n P).*1 = List.filter (fun p => match P p with Some _ => true | None => false end) (rpoints n).
Proof. unfold rstones_in. induction (List.filter _ _) as [|a l IH]; [reflexivity|]. cbn. f_equal. exact IH. Qed.

Lemma rpoints_length n : length (rpoints n) = (fst n * snd n)%nat.
Proof. unfold rpoints. etransitivity; [apply prod_length|]. rewrite !seq_length. reflexivity. Qed.

Lemma rrealise n P : fits n -> exists g, rwf n g /\ rsame_pos n (pos_of g) P.
Proof.
  intros Hn. destruct (rnew_wf n Hn) as (g0 & E0 & W0 & Hc & Hcell).
  assert (Hlen : (length (rstones_in n P) <= 361)%nat).
  { unfold rstones_in. rewrite map_length. etransitivity; [apply lfilter_length|]. rewrite rpoints_length. apply fits_points, Hn. }
  destruct (rpush_list_wf false n (rstones_in n P) g0 W0) as [[E F]|(g & E & W & HP & _)].
  - rewrite rstones_in_fst. apply NoDup_lfilter, NoDup_rpoints.
  - intros [p c] Hs. apply relem_of_stones_in in Hs as [Hs _]. split; [exact Hs|]. apply (rpos_new n); assumption.
  - exfalso. rewrite Hc in F. cbn in F. lia.
  - exists g. split; [exact W|]. intros p Hp. rewrite (HP p Hp).
    destruct (List.find _ _) as [[q c]|] eqn:Ef.
    + apply find_some in Ef as [H1 H2]. apply elem_of_list_In, relem_of_stones_in in H1 as [H1 H3].
      cbn in H2. apply coord_eqb_eq in H2. subst q. cbn. congruence.
    + rewrite (rpos_new n g0 p W0 Hcell Hp). destruct (P p) as [c|] eqn:Ep; [|reflexivity]. exfalso.
      pose proof (find_none _ _ Ef (p, c)) as H. rewrite <- elem_of_list_In, relem_of_stones_in in H.
      specialize (H (conj Hp Ep)). cbn in H. assert (coord_eqb p p = true) by (apply coord_eqb_eq; reflexivity). congruence.
Qed.

Lemma rpoints_ex_dec n (D : coord -> Prop) :
  (forall p, ron n p -> D p \/ ~ D p) -> (exists p, ron n p /\ D p) \/ (forall p, ron n p -> ~ D p).
Proof.
  intros H. assert (G : forall l : list coord, (forall p, p ∈ l -> ron n p) ->
     (exists p, p ∈ l /\ D p) \/ (forall p, p ∈ l -> ~ D p)).
  { induction l as [|a l IH]; intros Hl.
    - right. intros p Hp. apply elem_of_nil in Hp. destruct Hp.
    - destruct (H a ltac:(apply Hl; left)) as [Ha|Ha]; [left; exists a; split; [left|exact Ha]|].
      destruct IH as [(p & H1 & H2)|IH]; [intros p Hp; apply Hl; right; exact Hp|left; exists p; split; [right; exact H1|exact H2]|].
      right. intros p Hp. apply elem_of_cons in Hp as [->|Hp]; [exact Ha|apply IH, Hp]. }
  destruct (G (rpoints n)) as [(p & H1 & H2)|G'].
  - intros p Hp. apply elem_of_rpoints, Hp.
  - left. exists p. split; [apply elem_of_rpoints, H1|exact H2].
  - right. intros p Hp. apply G', elem_of_rpoints, Hp.
Qed.

Lemma rbreathes_dec n P p : fits n -> ron n p -> P p <> None -> rbreathes n P p \/ ~ rbreathes n P p.
Proof.
  intros Hn Hp H. destruct (rrealise n P Hn) as (g & W & HP).
  rewrite <- (HP p Hp) in H. destruct (rstone_group n g p W Hp H) as (k & grp & H1 & H2 & _).
  pose proof (rbreathes_dead n g p k grp W Hp H1 H2) as Hd.
  pose proof (rbreathes_lbit n g p k grp W Hp H1 H2) as Hl.
  destruct (wf0_chain g (rwf_0 n g W) k grp H2) as [Hbo _].
  pose proof (lib_any_spec _ Hbo) as Ha. unfold is_dead in Hd.
  destruct (lib_any (g_liberties grp)).
  - left. apply (rbreathes_ext n (pos_of g) P p HP). apply Hl, Ha. reflexivity.
  - right. intros Hb. apply (rbreathes_ext n P (pos_of g) p (rsame_pos_sym _ _ _ HP)) in Hb. apply Hd in Hb; [exact Hb|reflexivity].
Qed.

Lemma rconnected_dec n P p q : fits n -> ron n p -> P p <> None -> rconnected n P p q \/ ~ rconnected n P p q.
Proof.
  intros Hn Hp H. destruct (rrealise n P Hn) as (g & W & HP).
  rewrite <- (HP p Hp) in H. destruct (rstone_group n g p W Hp H) as (k & grp & H1 & H2 & _).
  pose proof (rconnected_cell n g p q k W Hp H1) as Hc.
  assert (D : (ron n q /\ cell g (ridx n q) = Some k) \/ ~ (ron n q /\ cell g (ridx n q) = Some k)).
  { destruct (decide (cell g (ridx n q) = Some k)) as [D|D]; [|right; tauto].
    unfold ron. destruct (decide (fst q < fst n /\ snd q < snd n)%nat); tauto. }
  destruct D as [D|D]; [left|right].
  - apply (rconnected_ext n (pos_of g) P p q HP). apply Hc, D.
  - intros Hq. apply D, Hc. apply (rconnected_ext n P (pos_of g) p q (rsame_pos_sym _ _ _ HP)), Hq.
Qed.

Lemma rtaken_dec n P p c q : fits n -> ron n q -> rtaken n P p c q \/ ~ rtaken n P p c q.
Proof.
  intros Hn Hq. destruct (rpoints_ex_dec n (fun t => adj p t /\ P t = Some (opp c) /\ rconnected n P t q /\ ~ rbreathes n P t)) as [(t & H1 & H2)|H].
  - intros t Ht. destruct (adj_dec p t) as [Ha|Ha]; [|tauto]. destruct (decide (P t = Some (opp c))) as [Hc|Hc]; [|tauto].
    destruct (rconnected_dec n P t q Hn Ht) as [Hd|Hd]; [congruence| |tauto].
    destruct (rbreathes_dec n P t Hn Ht) as [Hb|Hb]; [congruence| |]; tauto.
  - left. exists t. tauto.
  - right. intros (t & H1 & H2). apply (H t H1). tauto.
Qed.

Lemma rcleared_ex n D P : (forall q, ron n q -> D q \/ ~ D q) -> exists Q, rcleared n D P Q.
Proof.
  intros H. assert (G : forall l : list coord, (forall p, p ∈ l -> ron n p) ->
     exists Q : pos, forall q, q ∈ l -> (D q -> Q q = None) /\ (~ D q -> Q q = P q)).
  { induction l as [|a l IH]; intros Hl.
    - exists P. intros q Hq. apply elem_of_nil in Hq. destruct Hq.
    - destruct IH as [Q HQ]; [intros p Hp; apply Hl; right; exact Hp|].
      destruct (H a ltac:(apply Hl; left)) as [Ha|Ha].
      + exists (fun x => if decide (x = a) then None else Q x). intros q Hq. destruct (decide (q = a)) as [->|Hqa]; [tauto|].
        apply elem_of_cons in Hq as [->|Hq]; [contradiction|]. apply HQ, Hq.
      + exists (fun x => if decide (x = a) then P a else Q x). intros q Hq. destruct (decide (q = a)) as [->|Hqa]; [tauto|].
        apply elem_of_cons in Hq as [->|Hq]; [contradiction|]. apply HQ, Hq. }
  destruct (G (rpoints n)) as [Q HQ]; [intros p Hp; apply elem_of_rpoints, Hp|].
  exists Q. intros q Hq. apply HQ, elem_of_rpoints, Hq.
Qed.

Lemma rgo_move_exists s n P p c : fits n -> ron n p -> exists R, rgo_move s n P p c R.
Proof.
  intros Hn Hp. destruct (rcleared_ex n (rtaken n (put P p c) p c) (put P p c)) as [Q HQ].
  { intros q Hq. apply rtaken_dec; assumption. }
  assert (HQp : Q p = Some c).
  { rewrite (proj2 (HQ p Hp)).
    - unfold put. destruct (decide (p = p)); [reflexivity|contradiction].
    - intros H. apply rtaken_color in H. unfold put in H. destruct (decide (p = p)); [|contradiction]. injection H as H. apply (opp_ne c). congruence. }
  destruct (rcleared_ex n (fun q => s = true /\ ~ rbreathes n Q p /\ rconnected n Q p q) Q) as [R HR].
  { intros q Hq. destruct s; [|right; intros [H _]; discriminate].
    destruct (rbreathes_dec n Q p Hn Hp) as [Hb|Hb]; [congruence|tauto|].
    destruct (rconnected_dec n Q p q Hn Hp) as [Hd|Hd]; [congruence|tauto|tauto]. }
  exists R, Q. split; assumption.
Qed.

Lemma rcleared_empty n D P Q l : rcleared n D P Q -> ron n l -> P l = None -> Q l = None.
Proof.
  intros H Hl He. destruct (mcolor_dec (Q l) None) as [|Hne]; [assumption|]. exfalso.
  destruct (H l Hl) as [H1 H2]. assert (~ D l) by (intros Hd; apply Hne, H1, Hd). apply Hne. rewrite H2 by assumption. exact He.
Qed.

Lemma rcleared_stone n D P Q q : rcleared n D P Q -> ron n q -> Q q <> None -> ~ D q /\ Q q = P q.
Proof.
  intros H Hq Hne. destruct (H q Hq) as [H1 H2]. assert (~ D q) by (intros Hd; apply Hne, H1, Hd). split; [assumption|].
  apply H2. assumption.
Qed.

Section Cleared.
  Context (n : size_t) (D : coord -> Prop) (P Q : pos).
  Hypothesis HC : rcleared n D P Q.
  Hypothesis HD : forall a b, rcstep n P a b -> P a <> None -> D a -> D b.

  Lemma rcleared_conn a b : ron n a -> Q a <> None -> rconnected n Q a b <-> rconnected n P a b.
  Proof.
    intros Ha Hne. split.
    - intros H. induction H as [|a b d (H1 & H2 & H3 & H4) _ IH]; [apply rtc_refl|].
      assert (Q b <> None) by congruence.
      eapply rtc_l; [|apply IH; assumption]. split; [exact H1|]. split; [exact H2|]. split; [exact H3|].
      destruct (rcleared_stone n D P Q a HC H1 Hne) as [_ <-]. destruct (rcleared_stone n D P Q b HC H2) as [_ <-]; assumption.
    - intros H. induction H as [|a b d (H1 & H2 & H3 & H4) _ IH]; [apply rtc_refl|].
      destruct (rcleared_stone n D P Q a HC H1 Hne) as [N E].
      assert (Nb : ~ D b).
      { intros Hb. apply N. apply (HD b a); [|congruence|exact Hb]. split; [exact H2|]. split; [exact H1|]. split; [apply adj_sym, H3|congruence]. }
      assert (Eb : Q b = P b) by (apply HC; assumption).
      eapply rtc_l; [|apply IH; congruence]. split; [exact H1|]. split; [exact H2|]. split; [exact H3|congruence].
  Qed.

  Lemma rcleared_breathes a : ron n a -> Q a <> None -> rbreathes n P a -> rbreathes n Q a.
  Proof.
    intros Ha Hne (l & H1 & H2 & q & H3 & H4). exists l. split; [exact H1|]. split; [eapply rcleared_empty; eassumption|].
    exists q. split; [apply rcleared_conn; assumption|exact H4].
  Qed.
End Cleared.

Lemma rtaken_closed n P p c a b : rcstep n P a b -> P a <> None -> rtaken n P p c a -> rtaken n P p c b.
Proof.
  intros H _ (t & H1 & H2 & H3 & H4 & H5). exists t. split; [exact H1|]. split; [exact H2|]. split; [exact H3|].
  split; [eapply rtc_r; eassumption|exact H5].
Qed.


Section Move.
  Context (n : size_t) (P : pos) (p : coord) (c : color).
  Hypothesis Hn : fits n.
  Hypothesis Hp : ron n p.
  Hypothesis He : P p = None.
  Let P' := put P p c.

  Lemma rsuicidal_dec : rsuicidal n P p c \/ ~ rsuicidal n P p c.
  Proof.
    rewrite rsuicidal_iff. destruct (rpoints_ex_dec n (fun q => rtaken n P' p c q)) as [(q & Hq & Ht)|H].
    - intros q Hq. apply rtaken_dec; assumption.
    - right. intros [H _]. apply (H q Hq Ht).
    - destruct (rbreathes_dec n P' p Hn Hp) as [Hb|Hb]; [unfold P'; rewrite put_at; discriminate| |]; tauto.
  Qed.

  Lemma rgo_move_flag s s' R : ~ rsuicidal n P p c -> rgo_move s n P p c R -> rgo_move s' n P p c R.
  Proof.
    intros Hs (Q & HQ & HR). exists Q. split; [exact HQ|].
    assert (Hb : ~ ~ rbreathes n Q p) by (intros Hb; apply Hs; exists Q; tauto).
    intros q Hq. destruct (HR q Hq) as [_ H2]. split; [intros (_ & H & _); contradiction|]. intros _. apply H2. tauto.
  Qed.

  Hypothesis HA : rall_breathe n P.

  Lemma rtaken_anywhere_iff q : ron n q -> rtaken n P' p c q <-> rtaken_anywhere n P' c q.
  Proof.
    intros Hq. split.
    - intros H. split; [eapply rtaken_color, H|]. destruct H as (t & H1 & H2 & H3 & H4 & H5).
      intros Hb. apply H5. apply (rbreathes_connected n P' q t); [apply rconnected_sym, H4|exact Hb].
    - intros [Hc Hb]. pose proof Hc as Hc'. apply (put_opp P p c He) in Hc'.
      destruct (HA q Hq ltac:(congruence)) as (l & H1 & H2 & t & H3 & H4).
      assert (l = p).
      { destruct (decide (l = p)) as [|Hl]; [assumption|]. exfalso. apply Hb. apply (rbreathes_put_opp n P p c He q Hc').
        exists l. split; [exact Hl|]. split; [exact H1|]. split; [exact H2|]. eauto. }
      subst l. pose proof (rconn_put n P p c He q t ltac:(congruence) H3) as H3'.
      exists t. split; [exact (rconnected_on n P q t Hq H3)|]. split; [apply adj_sym, H4|].
      split; [rewrite <- (rconnected_same n P' q t H3'); exact Hc|]. split; [apply rconnected_sym, H3'|].
      intros Hbt. apply Hb. apply (rbreathes_connected n P' t q); [apply rconnected_sym, H3'|exact Hbt].
  Qed.

  Lemma rafter_capture Q q : rcleared n (rtaken n P' p c) P' Q -> ron n q -> Q q <> None -> ~ rconnected n Q p q -> rbreathes n Q q.
  Proof.
    intros HQ Hq Hne Hnc. destruct (rcleared_stone _ _ _ _ _ HQ Hq Hne) as [Hnt Eq].
    apply (rcleared_breathes n _ P' Q HQ (rtaken_closed n P' p c) q Hq Hne).
    assert (Hnc' : ~ rconnected n P' p q).
    { intros H. apply Hnc. apply (rcleared_conn n _ P' Q HQ (rtaken_closed n P' p c)); [exact Hp| |exact H].
      rewrite (proj2 (HQ p Hp)); [unfold P'; rewrite put_at; discriminate|]. apply rnot_taken_own, put_at. }
    rewrite Eq in Hne. destruct (P' q) as [x|] eqn:Ex; [|contradiction].
    destruct (color_eqb_spec x c) as [->|Hx].
    - assert (Hqp : q <> p) by (intros ->; apply Hnc', rtc_refl).
      apply rbreathes_put_same; try assumption.
      + rewrite <- (put_other P p c q Hqp). exact Ex.
      + apply HA; [exact Hq|]. rewrite <- (put_other P p c q Hqp). fold P'. congruence.
    - apply ne_opp in Hx. subst x. destruct (rbreathes_dec n P' q Hn Hq) as [Hb|Hb]; [congruence|exact Hb|].
      exfalso. apply Hnt, rtaken_anywhere_iff; [exact Hq|]. split; assumption.
  Qed.

  Lemma rown_closed Q s a b : rcstep n Q a b -> Q a <> None ->
    (s = true /\ ~ rbreathes n Q p /\ rconnected n Q p a) -> (s = true /\ ~ rbreathes n Q p /\ rconnected n Q p b).
  Proof. intros H _ (H1 & H2 & H3). split; [exact H1|]. split; [exact H2|]. eapply rtc_r; eassumption. Qed.

  Theorem rgo_move_all_breathe s R :
    s = true \/ ~ rsuicidal n P p c -> rgo_move s n P p c R -> rall_breathe n R.
  Proof.
    intros Hs (Q & HQ & HR) q Hq Hne.
    destruct (rcleared_stone _ _ _ _ _ HR Hq Hne) as [Hnd Eq].
    apply (rcleared_breathes n _ Q R HR (rown_closed Q s) q Hq Hne).
    assert (HQp : Q p = Some c).
    { rewrite (proj2 (HQ p Hp)); [unfold P'; apply put_at|]. apply rnot_taken_own, put_at. }
    destruct (rconnected_dec n Q p q Hn Hp) as [Hc|Hc]; [congruence| |].
    - apply (rbreathes_connected n Q p q Hc). destruct (rbreathes_dec n Q p Hn Hp) as [Hb|Hb]; [congruence|exact Hb|].
      exfalso. destruct Hs as [->|Hs]; [apply Hnd; tauto|]. apply Hs. exists Q. tauto.
    - apply rafter_capture; try assumption. congruence.
  Qed.

  Theorem rgo_move_tromp_taylor s R :
    s = true \/ ~ rsuicidal n P p c -> rgo_move s n P p c R -> rtromp_taylor_move n P p c R.
  Proof.
    intros Hs HM. assert (HM' : rgo_move true n P p c R).
    { destruct Hs as [->|Hs]; [exact HM|]. eapply rgo_move_flag; eassumption. }
    clear HM Hs. destruct HM' as (Q & HQ & HR). exists Q. split.
    - intros q Hq. destruct (HQ q Hq) as [A B]. split; intros H; [apply A|apply B; intros Ht; apply H];
        apply (rtaken_anywhere_iff q Hq); assumption.
    - assert (HQp : Q p = Some c).
      { rewrite (proj2 (HQ p Hp)); [unfold P'; apply put_at|]. apply rnot_taken_own, put_at. }
      intros q Hq. assert (HI : rtaken_anywhere n Q (opp c) q <-> (true = true /\ ~ rbreathes n Q p /\ rconnected n Q p q)).
      { unfold rtaken_anywhere. rewrite opp_invol. split.
        - intros [Hc Hb]. destruct (rconnected_dec n Q p q Hn Hp) as [Hd|Hd]; [congruence| |].
          + split; [reflexivity|]. split; [|exact Hd]. intros H. apply Hb. apply (rbreathes_connected n Q p q Hd H).
          + exfalso. apply Hb. apply rafter_capture; try assumption. congruence.
        - intros (_ & Hb & Hd). split; [rewrite <- (rconnected_same n Q p q Hd); exact HQp|].
          intros H. apply Hb. apply (rbreathes_connected n Q q p (rconnected_sym _ _ _ _ Hd) H). }
      rewrite HI. apply HR, Hq.
  Qed.
End Move.

