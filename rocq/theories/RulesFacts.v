(** Consequences of the rules of Go in Spec.v that do not mention the model. *)
From stdpp Require Import relations.
From Verif Require Import MonadFacts Spec Goban BitsetFacts CoordFacts Struct Push Inv Remove Capture Bridge GameFacts.
From Coq Require Import Lia.

(** ** Decidability: every position is shown by some well-formed board *)

Definition stones_in (n : nat) (P : pos) : list stone :=
  List.map (fun p => (p, default Black (P p)))
    (List.filter (fun p => match P p with Some _ => true | None => false end) (points n)).

Lemma coord_eqb_eq (a b : coord) : coord_eqb a b = true <-> a = b.
Proof.
  destruct a as [a1 a2], b as [b1 b2]. unfold coord_eqb. cbn. rewrite andb_true_iff, !Nat.eqb_eq.
  split; [intros [-> ->]; reflexivity|intros [= -> ->]; tauto].
Qed.

Lemma elem_of_stones_in n P p c : (p, c) ∈ stones_in n P <-> on n p /\ P p = Some c.
Proof.
  unfold stones_in. rewrite elem_of_lmap. split.
  - intros (q & E & H). apply elem_of_lfilter in H as [H1 H2]. injection E as -> ->. apply elem_of_points in H1.
    split; [exact H1|]. destruct (P q); [reflexivity|discriminate].
  - intros [H1 H2]. exists p. rewrite H2. split; [reflexivity|]. apply elem_of_lfilter. rewrite H2.
    split; [apply elem_of_points, H1|reflexivity].
Qed.

Lemma stones_in_fst n P : (stones_in n P).*1 = List.filter (fun p => match P p with Some _ => true | None => false end) (points n).
Proof. unfold stones_in. induction (List.filter _ _) as [|a l IH]; [reflexivity|]. cbn. f_equal. exact IH. Qed.

Lemma points_length n : length (points n) = (n * n)%nat.
Proof. unfold points. etransitivity; [apply prod_length|]. rewrite seq_length. reflexivity. Qed.

Lemma lfilter_length {A} (f : A -> bool) l : (length (List.filter f l) <= length l)%nat.
Proof. induction l as [|a l IH]; [reflexivity|]. cbn. destruct (f a); cbn; lia. Qed.

Lemma realise n P : (1 <= n <= 19)%nat -> exists g, wf n g /\ same_pos n (pos_of g) P.
Proof.
  intros Hn. destruct (new_wf n Hn) as (g0 & E0 & W0 & Hc & Hcell).
  assert (Hlen : (length (stones_in n P) <= 361)%nat).
  { unfold stones_in. rewrite map_length. etransitivity; [apply lfilter_length|]. rewrite points_length. apply sq_le, Hn. }
  destruct (push_list_wf false n (stones_in n P) g0 W0) as [[E F]|(g & E & W & HP & _)].
  - rewrite stones_in_fst. apply NoDup_lfilter, NoDup_points.
  - intros [p c] Hs. apply elem_of_stones_in in Hs as [Hs _]. split; [exact Hs|]. apply (pos_new n); assumption.
  - exfalso. rewrite Hc in F. cbn in F. lia.
  - exists g. split; [exact W|]. intros p Hp. rewrite (HP p Hp).
    destruct (List.find _ _) as [[q c]|] eqn:Ef.
    + apply find_some in Ef as [H1 H2]. apply elem_of_list_In, elem_of_stones_in in H1 as [H1 H3].
      cbn in H2. apply coord_eqb_eq in H2. subst q. cbn. congruence.
    + rewrite (pos_new n g0 p W0 Hcell Hp). destruct (P p) as [c|] eqn:Ep; [|reflexivity]. exfalso.
      pose proof (find_none _ _ Ef (p, c)) as H. rewrite <- elem_of_list_In, elem_of_stones_in in H.
      specialize (H (conj Hp Ep)). cbn in H. assert (coord_eqb p p = true) by (apply coord_eqb_eq; reflexivity). congruence.
Qed.

Lemma points_ex_dec n (D : coord -> Prop) :
  (forall p, on n p -> D p \/ ~ D p) -> (exists p, on n p /\ D p) \/ (forall p, on n p -> ~ D p).
Proof.
  intros H. assert (G : forall l : list coord, (forall p, p ∈ l -> on n p) ->
     (exists p, p ∈ l /\ D p) \/ (forall p, p ∈ l -> ~ D p)).
  { induction l as [|a l IH]; intros Hl.
    - right. intros p Hp. apply elem_of_nil in Hp. destruct Hp.
    - destruct (H a ltac:(apply Hl; left)) as [Ha|Ha]; [left; exists a; split; [left|exact Ha]|].
      destruct IH as [(p & H1 & H2)|IH]; [intros p Hp; apply Hl; right; exact Hp|left; exists p; split; [right; exact H1|exact H2]|].
      right. intros p Hp. apply elem_of_cons in Hp as [->|Hp]; [exact Ha|apply IH, Hp]. }
  destruct (G (points n)) as [(p & H1 & H2)|G'].
  - intros p Hp. apply elem_of_points, Hp.
  - left. exists p. split; [apply elem_of_points, H1|exact H2].
  - right. intros p Hp. apply G', elem_of_points, Hp.
Qed.

Lemma stone_group n g p : wf n g -> on n p -> pos_of g p <> None ->
  exists k grp, cell g (idx n p) = Some k /\ live g k = Some grp /\ pos_of g p = Some (g_color grp).
Proof.
  intros W Hp H. rewrite (pos_of_col n g p W Hp) in *. destruct (col g (idx n p)) as [c|] eqn:E; [|contradiction].
  apply col_Some_inv in E as (k & grp & H1 & H2 & H3). exists k, grp. split; [exact H1|]. split; [exact H2|congruence].
Qed.

Lemma breathes_dec n P p : (n <= 19)%nat -> on n p -> P p <> None -> breathes n P p \/ ~ breathes n P p.
Proof.
  intros Hn Hp H. pose proof (on_pos n p Hp). destruct (realise n P ltac:(lia)) as (g & W & HP).
  rewrite <- (HP p Hp) in H. destruct (stone_group n g p W Hp H) as (k & grp & H1 & H2 & _).
  pose proof (breathes_dead n g p k grp W Hp H1 H2) as Hd.
  pose proof (breathes_lbit n g p k grp W Hp H1 H2) as Hl.
  destruct (wf0_chain g (wf_0 n g W) k grp H2) as [Hbo _].
  pose proof (lib_any_spec _ Hbo) as Ha. unfold is_dead in Hd.
  destruct (lib_any (g_liberties grp)).
  - left. apply (breathes_ext n (pos_of g) P p HP). apply Hl, Ha. reflexivity.
  - right. intros Hb. apply (breathes_ext n P (pos_of g) p (same_pos_sym _ _ _ HP)) in Hb. apply Hd in Hb; [exact Hb|reflexivity].
Qed.

Lemma connected_dec n P p q : (n <= 19)%nat -> on n p -> P p <> None -> connected n P p q \/ ~ connected n P p q.
Proof.
  intros Hn Hp H. pose proof (on_pos n p Hp). destruct (realise n P ltac:(lia)) as (g & W & HP).
  rewrite <- (HP p Hp) in H. destruct (stone_group n g p W Hp H) as (k & grp & H1 & H2 & _).
  pose proof (connected_cell n g p q k W Hp H1) as Hc.
  assert (D : (on n q /\ cell g (idx n q) = Some k) \/ ~ (on n q /\ cell g (idx n q) = Some k)).
  { destruct (decide (cell g (idx n q) = Some k)) as [D|D]; [|right; tauto].
    unfold on. destruct (decide (fst q < n /\ snd q < n)%nat); tauto. }
  destruct D as [D|D]; [left|right].
  - apply (connected_ext n (pos_of g) P p q HP). apply Hc, D.
  - intros Hq. apply D, Hc. apply (connected_ext n P (pos_of g) p q (same_pos_sym _ _ _ HP)), Hq.
Qed.

Lemma adj_dec p q : adj p q \/ ~ adj p q.
Proof. unfold adj. destruct (decide (fst p = fst q)), (decide (snd p = snd q)); lia. Qed.

Lemma taken_color n P p c q : taken n P p c q -> P q = Some (opp c).
Proof. intros (t & _ & _ & H & Hc & _). rewrite <- (connected_same n P t q Hc). exact H. Qed.

Lemma taken_on n P p c q : taken n P p c q -> on n q.
Proof. intros (t & Ht & _ & _ & Hc & _). exact (connected_on n P t q Ht Hc). Qed.

Lemma taken_dec n P p c q : (n <= 19)%nat -> on n q -> taken n P p c q \/ ~ taken n P p c q.
Proof.
  intros Hn Hq. destruct (points_ex_dec n (fun t => adj p t /\ P t = Some (opp c) /\ connected n P t q /\ ~ breathes n P t)) as [(t & H1 & H2)|H].
  - intros t Ht. destruct (adj_dec p t) as [Ha|Ha]; [|tauto]. destruct (decide (P t = Some (opp c))) as [Hc|Hc]; [|tauto].
    destruct (connected_dec n P t q Hn Ht) as [Hd|Hd]; [congruence| |tauto].
    destruct (breathes_dec n P t Hn Ht) as [Hb|Hb]; [congruence| |]; tauto.
  - left. exists t. tauto.
  - right. intros (t & H1 & H2). apply (H t H1). tauto.
Qed.

Lemma cleared_ex n D P : (forall q, on n q -> D q \/ ~ D q) -> exists Q, cleared n D P Q.
Proof.
  intros H. assert (G : forall l : list coord, (forall p, p ∈ l -> on n p) ->
     exists Q : pos, forall q, q ∈ l -> (D q -> Q q = None) /\ (~ D q -> Q q = P q)).
  { induction l as [|a l IH]; intros Hl.
    - exists P. intros q Hq. apply elem_of_nil in Hq. destruct Hq.
    - destruct IH as [Q HQ]; [intros p Hp; apply Hl; right; exact Hp|].
      destruct (H a ltac:(apply Hl; left)) as [Ha|Ha].
      + exists (fun x => if decide (x = a) then None else Q x). intros q Hq. destruct (decide (q = a)) as [->|Hqa]; [tauto|].
        apply elem_of_cons in Hq as [->|Hq]; [contradiction|]. apply HQ, Hq.
      + exists (fun x => if decide (x = a) then P a else Q x). intros q Hq. destruct (decide (q = a)) as [->|Hqa]; [tauto|].
        apply elem_of_cons in Hq as [->|Hq]; [contradiction|]. apply HQ, Hq. }
  destruct (G (points n)) as [Q HQ]; [intros p Hp; apply elem_of_points, Hp|].
  exists Q. intros q Hq. apply HQ, elem_of_points, Hq.
Qed.

Lemma go_move_exists s n P p c : (n <= 19)%nat -> on n p -> exists R, go_move s n P p c R.
Proof.
  intros Hn Hp. destruct (cleared_ex n (taken n (put P p c) p c) (put P p c)) as [Q HQ].
  { intros q Hq. apply taken_dec; assumption. }
  assert (HQp : Q p = Some c).
  { rewrite (proj2 (HQ p Hp)).
    - unfold put. destruct (decide (p = p)); [reflexivity|contradiction].
    - intros H. apply taken_color in H. unfold put in H. destruct (decide (p = p)); [|contradiction]. injection H as H. apply (opp_ne c). congruence. }
  destruct (cleared_ex n (fun q => s = true /\ ~ breathes n Q p /\ connected n Q p q) Q) as [R HR].
  { intros q Hq. destruct s; [|right; intros [H _]; discriminate].
    destruct (breathes_dec n Q p Hn Hp) as [Hb|Hb]; [congruence|tauto|].
    destruct (connected_dec n Q p q Hn Hp) as [Hd|Hd]; [congruence|tauto|tauto]. }
  exists R, Q. split; assumption.
Qed.

(** ** The rules determine the position *)

Lemma mcolor_dec (a b : option color) : a = b \/ a <> b.
Proof. destruct (decide (a = b)); tauto. Qed.

Lemma cleared_det n (D D' : coord -> Prop) P P' Q Q' :
  (forall q, on n q -> D q <-> D' q) -> same_pos n P P' ->
  cleared n D P Q -> cleared n D' P' Q' -> same_pos n Q Q'.
Proof.
  intros HD HP H H' q Hq. destruct (mcolor_dec (Q q) (Q' q)) as [|Hne]; [assumption|]. exfalso.
  destruct (H q Hq) as [A1 A2]. destruct (H' q Hq) as [B1 B2].
  assert (N : ~ D q).
  { intros Hd. apply Hne. rewrite A1, B1; [reflexivity|apply HD; assumption|assumption]. }
  apply Hne. rewrite A2, B2; [apply HP, Hq| |exact N]. intros Hd. apply N, HD; assumption.
Qed.

Lemma iff_ext {X : Type} (A B : X -> Prop) : (forall x, A x -> B x) -> (forall x, B x -> A x) -> forall x, A x <-> B x.
Proof. intros H1 H2 x. split; auto. Qed.

Lemma go_move_det s n P P' p c R R' :
  same_pos n P P' -> go_move s n P p c R -> go_move s n P' p c R' -> same_pos n R R'.
Proof.
  intros HP (Q & H1 & H2) (Q' & H1' & H2').
  assert (HQ : same_pos n Q Q').
  { eapply cleared_det; [|apply put_ext, HP|exact H1|exact H1'].
    intros q _. split; apply taken_ext; [|apply same_pos_sym]; apply put_ext, HP. }
  pose proof (same_pos_sym _ _ _ HQ) as HQ'.
  eapply cleared_det; [|exact HQ|exact H2|exact H2'].
  intros q _. cbn. split; intros (E & Hb & Hc); (split; [exact E|]); split.
  - intros Hb'. apply Hb, (breathes_ext n Q Q' p HQ), Hb'.
  - apply (connected_ext n Q Q' p q HQ), Hc.
  - intros Hb'. apply Hb, (breathes_ext n Q Q' p HQ), Hb'.
  - apply (connected_ext n Q' Q p q HQ'), Hc.
Qed.

(** ** Chains after a stone has been put *)

Section Put.
  Context (n : nat) (P : pos) (p : coord) (c : color).
  Hypothesis Hn : (n <= 19)%nat.
  Hypothesis Hp : on n p.
  Hypothesis He : P p = None.
  Let P' := put P p c.

  Lemma put_at : P' p = Some c.
  Proof. unfold P', put. destruct (decide (p = p)); [reflexivity|contradiction]. Qed.
  Lemma put_other q : q <> p -> P' q = P q.
  Proof. intros H. unfold P', put. destruct (decide (q = p)); [contradiction|reflexivity]. Qed.
  Lemma put_none q : P' q = None <-> q <> p /\ P q = None.
  Proof. unfold P', put. destruct (decide (q = p)) as [->|]; split; [discriminate|tauto|tauto|tauto]. Qed.
  Lemma put_opp q : P' q = Some (opp c) <-> P q = Some (opp c).
  Proof.
    unfold P', put. destruct (decide (q = p)) as [->|]; [|tauto]. rewrite He.
    split; [|discriminate]. intros [= H]. destruct (opp_ne c). congruence.
  Qed.

  Lemma conn_put a b : P a <> None -> connected n P a b -> connected n P' a b.
  Proof.
    intros Ha H. induction H as [|a b d (H1 & H2 & H3 & H4) _ IH]; [apply rtc_refl|].
    eapply rtc_l; [|apply IH; congruence]. split; [exact H1|]. split; [exact H2|]. split; [exact H3|].
    rewrite !put_other by (intros ->; congruence). exact H4.
  Qed.

  Lemma conn_put_opp a b : P a = Some (opp c) -> connected n P' a b <-> connected n P a b.
  Proof.
    intros Ha. split; [|apply conn_put; congruence].
    intros H. apply put_opp in Ha. induction H as [|a b d (H1 & H2 & H3 & H4) _ IH]; [apply rtc_refl|].
    eapply rtc_l; [|apply IH; congruence]. split; [exact H1|]. split; [exact H2|]. split; [exact H3|].
    rewrite H4 in Ha. pose proof (proj1 (put_opp b) Ha). rewrite <- H4 in Ha. pose proof (proj1 (put_opp a) Ha). congruence.
  Qed.

  Lemma conn_put_own q : connected n P' p q <-> q = p \/ exists t, on n t /\ adj p t /\ P t = Some c /\ connected n P t q.
  Proof.
    split.
    - intros H. unfold connected in H. revert q H. refine (rtc_ind_r _ _ _ _); [tauto|]. intros x q _ (H1 & H2 & H3 & H4) IH.
      assert (Hx : P' x = Some c).
      { destruct IH as [->|(t & T1 & T2 & T3 & T4)]; [apply put_at|].
        rewrite put_other; [rewrite <- (connected_same n P t x T4); exact T3|].
        intros ->. rewrite (connected_same n P t p T4) in T3. congruence. }
      destruct (decide (q = p)) as [->|Hq]; [tauto|]. right.
      assert (Pq : P q = Some c) by (rewrite <- (put_other q Hq); congruence).
      destruct IH as [->|(t & T1 & T2 & T3 & T4)].
      + exists q. split; [exact H2|]. split; [exact H3|]. split; [exact Pq|apply rtc_refl].
      + exists t. split; [exact T1|]. split; [exact T2|]. split; [exact T3|]. eapply rtc_r; [exact T4|].
        split; [exact H1|]. split; [exact H2|]. split; [exact H3|].
        rewrite <- (connected_same n P t x T4). congruence.
    - intros [->|(t & T1 & T2 & T3 & T4)]; [apply rtc_refl|].
      eapply rtc_l; [|apply (conn_put t q); [congruence|exact T4]].
      split; [exact Hp|]. split; [exact T1|]. split; [exact T2|]. rewrite put_at, put_other; [congruence|]. intros ->. congruence.
  Qed.

  (** chains of colour [c] that do not touch [p] *)
  Lemma conn_put_same a b : P a = Some c -> ~ connected n P' p a -> connected n P' a b <-> connected n P a b.
  Proof.
    intros Ha Hna. split; [|apply conn_put; congruence].
    intros H. unfold connected in H. revert b H. refine (rtc_ind_r _ _ _ _); [apply rtc_refl|]. intros x b _ (H1 & H2 & H3 & H4) IH.
    eapply rtc_r; [exact IH|]. split; [exact H1|]. split; [exact H2|]. split; [exact H3|].
    assert (Hxp : x <> p).
    { intros ->. rewrite (connected_same n P a p IH) in Ha. congruence. }
    rewrite (put_other x Hxp) in H4. destruct (decide (b = p)) as [->|Hb]; [|rewrite (put_other b Hb) in H4; exact H4].
    exfalso. apply Hna. apply conn_put_own. right. exists x. split; [exact H1|]. split; [apply adj_sym, H3|].
    rewrite <- (connected_same n P a x IH). split; [exact Ha|]. apply connected_sym, IH.
  Qed.

  Lemma lib_put_opp a l : P a = Some (opp c) -> liberty n P' a l <-> l <> p /\ liberty n P a l.
  Proof.
    intros Ha. unfold liberty. split.
    - intros (H1 & H2 & q & H3 & H4). apply put_none in H2 as [H2 H2']. split; [exact H2|]. split; [exact H1|]. split; [exact H2'|].
      exists q. split; [apply conn_put_opp; assumption|exact H4].
    - intros (H0 & H1 & H2 & q & H3 & H4). split; [exact H1|]. split; [apply put_none; tauto|].
      exists q. split; [apply conn_put_opp; assumption|exact H4].
  Qed.

  Lemma breathes_put_opp a : P a = Some (opp c) -> breathes n P' a <-> exists l, l <> p /\ liberty n P a l.
  Proof. intros Ha. unfold breathes. split; intros [l H]; exists l; apply (lib_put_opp a l Ha); assumption. Qed.

  Lemma breathes_put_own : breathes n P' p <->
    (exists l, on n l /\ adj p l /\ P l = None) \/
    (exists t l, on n t /\ adj p t /\ P t = Some c /\ l <> p /\ liberty n P t l).
  Proof.
    split.
    - intros (l & H1 & H2 & q & H3 & H4). apply put_none in H2 as [H2 H2'].
      apply conn_put_own in H3 as [->|(t & T1 & T2 & T3 & T4)].
      + left. exists l. tauto.
      + right. exists t, l. split; [exact T1|]. split; [exact T2|]. split; [exact T3|]. split; [exact H2|].
        split; [exact H1|]. split; [exact H2'|]. exists q. tauto.
    - intros [(l & H1 & H2 & H3)|(t & l & T1 & T2 & T3 & H0 & H1 & H2 & q & H3 & H4)]; exists l.
      + split; [exact H1|]. split.
        * apply put_none. split; [|exact H3]. intros ->. unfold adj in H2. lia.
        * exists p. split; [apply rtc_refl|exact H2].
      + split; [exact H1|]. split; [apply put_none; tauto|]. exists q. split; [|exact H4].
        apply conn_put_own. right. exists t. tauto.
  Qed.

  Lemma breathes_put_same a : on n a -> P a = Some c -> ~ connected n P' p a -> breathes n P a -> breathes n P' a.
  Proof.
    intros Hon Ha Hna (l & H1 & H2 & q & H3 & H4). exists l. split; [exact H1|]. split.
    - apply put_none. split; [|exact H2]. intros ->. apply Hna, conn_put_own. right. exists q.
      split; [exact (connected_on n P a q Hon H3)|]. split; [apply adj_sym, H4|].
      split; [rewrite <- (connected_same n P a q H3); exact Ha|apply connected_sym, H3].
    - exists q. split; [apply conn_put_same; assumption|exact H4].
  Qed.
End Put.

(** ** Clearing whole chains *)

Lemma cleared_empty n D P Q l : cleared n D P Q -> on n l -> P l = None -> Q l = None.
Proof.
  intros H Hl He. destruct (mcolor_dec (Q l) None) as [|Hne]; [assumption|]. exfalso.
  destruct (H l Hl) as [H1 H2]. assert (~ D l) by (intros Hd; apply Hne, H1, Hd). apply Hne. rewrite H2 by assumption. exact He.
Qed.

Lemma cleared_stone n D P Q q : cleared n D P Q -> on n q -> Q q <> None -> ~ D q /\ Q q = P q.
Proof.
  intros H Hq Hne. destruct (H q Hq) as [H1 H2]. assert (~ D q) by (intros Hd; apply Hne, H1, Hd). split; [assumption|].
  apply H2. assumption.
Qed.

Section Cleared.
  Context (n : nat) (D : coord -> Prop) (P Q : pos).
  Hypothesis HC : cleared n D P Q.
  Hypothesis HD : forall a b, cstep n P a b -> P a <> None -> D a -> D b.

  Lemma cleared_conn a b : on n a -> Q a <> None -> connected n Q a b <-> connected n P a b.
  Proof.
    intros Ha Hne. split.
    - intros H. induction H as [|a b d (H1 & H2 & H3 & H4) _ IH]; [apply rtc_refl|].
      assert (Q b <> None) by congruence.
      eapply rtc_l; [|apply IH; assumption]. split; [exact H1|]. split; [exact H2|]. split; [exact H3|].
      destruct (cleared_stone n D P Q a HC H1 Hne) as [_ <-]. destruct (cleared_stone n D P Q b HC H2) as [_ <-]; assumption.
    - intros H. induction H as [|a b d (H1 & H2 & H3 & H4) _ IH]; [apply rtc_refl|].
      destruct (cleared_stone n D P Q a HC H1 Hne) as [N E].
      assert (Nb : ~ D b).
      { intros Hb. apply N. apply (HD b a); [|congruence|exact Hb]. split; [exact H2|]. split; [exact H1|]. split; [apply adj_sym, H3|congruence]. }
      assert (Eb : Q b = P b) by (apply HC; assumption).
      eapply rtc_l; [|apply IH; congruence]. split; [exact H1|]. split; [exact H2|]. split; [exact H3|congruence].
  Qed.

  Lemma cleared_breathes a : on n a -> Q a <> None -> breathes n P a -> breathes n Q a.
  Proof.
    intros Ha Hne (l & H1 & H2 & q & H3 & H4). exists l. split; [exact H1|]. split; [eapply cleared_empty; eassumption|].
    exists q. split; [apply cleared_conn; assumption|exact H4].
  Qed.
End Cleared.

Lemma taken_closed n P p c a b : cstep n P a b -> P a <> None -> taken n P p c a -> taken n P p c b.
Proof.
  intros H _ (t & H1 & H2 & H3 & H4 & H5). exists t. split; [exact H1|]. split; [exact H2|]. split; [exact H3|].
  split; [eapply rtc_r; eassumption|exact H5].
Qed.

Section Move.
  Context (n : nat) (P : pos) (p : coord) (c : color).
  Hypothesis Hn : (n <= 19)%nat.
  Hypothesis Hp : on n p.
  Hypothesis He : P p = None.
  Let P' := put P p c.

  Lemma not_taken_own q : P' q = Some c -> ~ taken n P' p c q.
  Proof. intros H Ht. apply taken_color in Ht. destruct (opp_ne c). congruence. Qed.

  Lemma capture_breathes Q q : cleared n (taken n P' p c) P' Q -> taken n P' p c q -> breathes n Q p.
  Proof.
    intros HQ (t & H1 & H2 & H3 & H4 & H5). exists t. split; [exact H1|]. split.
    - apply (HQ t H1). exists t. split; [exact H1|]. split; [exact H2|]. split; [exact H3|]. split; [apply rtc_refl|exact H5].
    - exists p. split; [apply rtc_refl|exact H2].
  Qed.

  Lemma no_capture Q : cleared n (taken n P' p c) P' Q -> (forall q, on n q -> ~ taken n P' p c q) -> same_pos n Q P'.
  Proof. intros HQ H q Hq. apply (HQ q Hq), H, Hq. Qed.

  Lemma suicidal_iff : suicidal n P p c <-> (forall q, on n q -> ~ taken n P' p c q) /\ ~ breathes n P' p.
  Proof.
    split.
    - intros (Q & HQ & Hb). assert (HT : forall q, on n q -> ~ taken n P' p c q).
      { intros q Hq Ht. apply Hb. eapply capture_breathes; eassumption. }
      split; [exact HT|]. intros Hb'. apply Hb. apply (breathes_ext n Q P' p); [apply no_capture; assumption|exact Hb'].
    - intros [HT Hb]. exists P'. split; [|exact Hb]. intros q Hq. split; [|reflexivity]. intros Ht. destruct (HT q Hq Ht).
  Qed.

  Lemma taken_touching : (exists q, on n q /\ taken n P' p c q) <->
    exists t, on n t /\ adj p t /\ P t = Some (opp c) /\ ~ (exists l, l <> p /\ liberty n P t l).
  Proof.
    split.
    - intros (q & Hq & t & H1 & H2 & H3 & H4 & H5). apply (put_opp P p c He) in H3. exists t. split; [exact H1|]. split; [exact H2|].
      split; [exact H3|]. intros H. apply H5. apply (breathes_put_opp n P p c He t H3), H.
    - intros (t & H1 & H2 & H3 & H4). exists t. split; [exact H1|]. exists t. split; [exact H1|]. split; [exact H2|].
      split; [apply put_opp; assumption|]. split; [apply rtc_refl|]. intros H. apply H4. apply (breathes_put_opp n P p c He t H3), H.
  Qed.

  Lemma suicidal_dec : suicidal n P p c \/ ~ suicidal n P p c.
  Proof.
    rewrite suicidal_iff. destruct (points_ex_dec n (fun q => taken n P' p c q)) as [(q & Hq & Ht)|H].
    - intros q Hq. apply taken_dec; assumption.
    - right. intros [H _]. apply (H q Hq Ht).
    - destruct (breathes_dec n P' p Hn Hp) as [Hb|Hb]; [unfold P'; rewrite put_at; discriminate| |]; tauto.
  Qed.

  Lemma go_move_flag s s' R : ~ suicidal n P p c -> go_move s n P p c R -> go_move s' n P p c R.
  Proof.
    intros Hs (Q & HQ & HR). exists Q. split; [exact HQ|].
    assert (Hb : ~ ~ breathes n Q p) by (intros Hb; apply Hs; exists Q; tauto).
    intros q Hq. destruct (HR q Hq) as [_ H2]. split; [intros (_ & H & _); contradiction|]. intros _. apply H2. tauto.
  Qed.

  Hypothesis HA : all_breathe n P.

  Lemma taken_anywhere_iff q : on n q -> taken n P' p c q <-> taken_anywhere n P' c q.
  Proof.
    intros Hq. split.
    - intros H. split; [eapply taken_color, H|]. destruct H as (t & H1 & H2 & H3 & H4 & H5).
      intros Hb. apply H5. apply (breathes_connected n P' q t); [apply connected_sym, H4|exact Hb].
    - intros [Hc Hb]. pose proof Hc as Hc'. apply (put_opp P p c He) in Hc'.
      destruct (HA q Hq ltac:(congruence)) as (l & H1 & H2 & t & H3 & H4).
      assert (l = p).
      { destruct (decide (l = p)) as [|Hl]; [assumption|]. exfalso. apply Hb. apply (breathes_put_opp n P p c He q Hc').
        exists l. split; [exact Hl|]. split; [exact H1|]. split; [exact H2|]. eauto. }
      subst l. pose proof (conn_put n P p c He q t ltac:(congruence) H3) as H3'.
      exists t. split; [exact (connected_on n P q t Hq H3)|]. split; [apply adj_sym, H4|].
      split; [rewrite <- (connected_same n P' q t H3'); exact Hc|]. split; [apply connected_sym, H3'|].
      intros Hbt. apply Hb. apply (breathes_connected n P' t q); [apply connected_sym, H3'|exact Hbt].
  Qed.

  Lemma after_capture Q q : cleared n (taken n P' p c) P' Q -> on n q -> Q q <> None -> ~ connected n Q p q -> breathes n Q q.
  Proof.
    intros HQ Hq Hne Hnc. destruct (cleared_stone _ _ _ _ _ HQ Hq Hne) as [Hnt Eq].
    apply (cleared_breathes n _ P' Q HQ (taken_closed n P' p c) q Hq Hne).
    assert (Hnc' : ~ connected n P' p q).
    { intros H. apply Hnc. apply (cleared_conn n _ P' Q HQ (taken_closed n P' p c)); [exact Hp| |exact H].
      rewrite (proj2 (HQ p Hp)); [unfold P'; rewrite put_at; discriminate|]. apply not_taken_own, put_at. }
    rewrite Eq in Hne. destruct (P' q) as [x|] eqn:Ex; [|contradiction].
    destruct (color_eqb_spec x c) as [->|Hx].
    - assert (Hqp : q <> p) by (intros ->; apply Hnc', rtc_refl).
      apply breathes_put_same; try assumption.
      + rewrite <- (put_other P p c q Hqp). exact Ex.
      + apply HA; [exact Hq|]. rewrite <- (put_other P p c q Hqp). fold P'. congruence.
    - apply ne_opp in Hx. subst x. destruct (breathes_dec n P' q Hn Hq) as [Hb|Hb]; [congruence|exact Hb|].
      exfalso. apply Hnt, taken_anywhere_iff; [exact Hq|]. split; assumption.
  Qed.

  Lemma own_closed Q s a b : cstep n Q a b -> Q a <> None ->
    (s = true /\ ~ breathes n Q p /\ connected n Q p a) -> (s = true /\ ~ breathes n Q p /\ connected n Q p b).
  Proof. intros H _ (H1 & H2 & H3). split; [exact H1|]. split; [exact H2|]. eapply rtc_r; eassumption. Qed.

  Theorem go_move_all_breathe s R :
    s = true \/ ~ suicidal n P p c -> go_move s n P p c R -> all_breathe n R.
  Proof.
    intros Hs (Q & HQ & HR) q Hq Hne.
    destruct (cleared_stone _ _ _ _ _ HR Hq Hne) as [Hnd Eq].
    apply (cleared_breathes n _ Q R HR (own_closed Q s) q Hq Hne).
    assert (HQp : Q p = Some c).
    { rewrite (proj2 (HQ p Hp)); [unfold P'; apply put_at|]. apply not_taken_own, put_at. }
    destruct (connected_dec n Q p q Hn Hp) as [Hc|Hc]; [congruence| |].
    - apply (breathes_connected n Q p q Hc). destruct (breathes_dec n Q p Hn Hp) as [Hb|Hb]; [congruence|exact Hb|].
      exfalso. destruct Hs as [->|Hs]; [apply Hnd; tauto|]. apply Hs. exists Q. tauto.
    - apply after_capture; try assumption. congruence.
  Qed.

  Theorem go_move_tromp_taylor s R :
    s = true \/ ~ suicidal n P p c -> go_move s n P p c R -> tromp_taylor_move n P p c R.
  Proof.
    intros Hs HM. assert (HM' : go_move true n P p c R).
    { destruct Hs as [->|Hs]; [exact HM|]. eapply go_move_flag; eassumption. }
    clear HM Hs. destruct HM' as (Q & HQ & HR). exists Q. split.
    - intros q Hq. destruct (HQ q Hq) as [A B]. split; intros H; [apply A|apply B; intros Ht; apply H];
        apply (taken_anywhere_iff q Hq); assumption.
    - assert (HQp : Q p = Some c).
      { rewrite (proj2 (HQ p Hp)); [unfold P'; apply put_at|]. apply not_taken_own, put_at. }
      intros q Hq. assert (HI : taken_anywhere n Q (opp c) q <-> (true = true /\ ~ breathes n Q p /\ connected n Q p q)).
      { unfold taken_anywhere. rewrite opp_invol. split.
        - intros [Hc Hb]. destruct (connected_dec n Q p q Hn Hp) as [Hd|Hd]; [congruence| |].
          + split; [reflexivity|]. split; [|exact Hd]. intros H. apply Hb. apply (breathes_connected n Q p q Hd H).
          + exfalso. apply Hb. apply after_capture; try assumption. congruence.
        - intros (_ & Hb & Hd). split; [rewrite <- (connected_same n Q p q Hd); exact HQp|].
          intros H. apply Hb. apply (breathes_connected n Q q p (connected_sym _ _ _ _ Hd) H). }
      rewrite HI. apply HR, Hq.
  Qed.
End Move.
