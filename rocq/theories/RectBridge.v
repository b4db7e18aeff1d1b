(** From group numbers and bit sets to positions, on boards whose width divides
    their height. *)
From stdpp Require Import relations.
From Verif Require Import Spec Goban BitsetFacts CoordFacts Struct Push Inv Remove Capture Bridge RectSpec RectCoord RectInv RectRemove RectCapture.
From Coq Require Import Lia.

Definition ridx (n : size_t) (p : coord) : nat := (fst p * fst n + snd p)%nat.
Definition rpt (n : size_t) (i : nat) : coord := (i / fst n, i mod fst n)%nat.

Lemma ridx_on n p : fits n -> ron n p -> vi n (ridx n p).
Proof. intros F [H1 H2]. apply vi_idx; assumption. Qed.

Lemma rpt_on n i : vi n i -> ron n (rpt n i).
Proof. intros H. exact H. Qed.

Lemma ridx_pt n i : vi n i -> ridx n (rpt n i) = i.
Proof.
  intros [H _]. unfold ridx, rpt. cbn [fst snd]. assert (fst n <> 0)%nat by lia.
  pose proof (Nat.div_mod i (fst n)). lia.
Qed.

Lemma rpt_idx n p : fits n -> ron n p -> rpt n (ridx n p) = p.
Proof.
  destruct p as [r c]. intros F [_ H]. unfold rpt, ridx. cbn [fst snd] in *. pose proof (fits_wide n F).
  destruct (divmod_idx (fst n) r c ltac:(lia)) as [-> ->]. reflexivity.
Qed.

Lemma ridx_inj n p q : fits n -> ron n p -> ron n q -> ridx n p = ridx n q -> p = q.
Proof. intros F Hp Hq H. rewrite <- (rpt_idx n p F Hp), <- (rpt_idx n q F Hq), H. reflexivity. Qed.

Lemma radj_nb n p q : fits n -> ron n p -> ron n q -> adj p q <-> ridx n q ∈ rnb n (ridx n p).
Proof.
  intros F Hp Hq. rewrite elem_of_rnb by (try apply ridx_on; assumption).
  change (ridx n p / fst n, ridx n p mod fst n)%nat with (rpt n (ridx n p)).
  change (ridx n q / fst n, ridx n q mod fst n)%nat with (rpt n (ridx n q)).
  rewrite !rpt_idx by assumption. rewrite adj_adjc. pose proof (ridx_on n q F Hq). tauto.
Qed.

Lemma rget_color_ok n g p : rwf n g -> ron n p -> get_color g p = Ok (col g (ridx n p)).
Proof.
  intros W Hp. unfold get_color. rewrite (rwf_size n g W). apply get_color_idx_ok.
  - apply (rwf_0 n g W).
  - pose proof (rwf_n n g W) as F. apply (vi_361 n); [exact F|]. apply (ridx_on n p F Hp).
Qed.

Lemma rpos_of_col n g p : rwf n g -> ron n p -> pos_of g p = col g (ridx n p).
Proof. intros W Hp. unfold pos_of. rewrite (rget_color_ok n g p W Hp). reflexivity. Qed.

Lemma elem_of_rpoints n p : p ∈ rpoints n <-> ron n p.
Proof.
  unfold rpoints. rewrite elem_of_list_In. destruct p as [r c].
  etransitivity; [exact (in_prod_iff (seq 0 (fst n)) (seq 0 (snd n)) r c)|]. rewrite !in_seq.
  unfold ron. cbn [fst snd]. lia.
Qed.

Lemma NoDup_rpoints n : NoDup (rpoints n).
Proof. apply NoDup_list_prod; apply NoDup_ListNoDup, seq_NoDup. Qed.

Lemma rpoints_perm n : fits n -> rpoints n ≡ₚ rpt n <$> vidx n.
Proof.
  intros F. apply NoDup_Permutation.
  - apply NoDup_rpoints.
  - apply NoDup_fmap_in.
    + intros x y Hx Hy E. apply elem_of_vidx in Hx, Hy; [|exact F..].
      rewrite <- (ridx_pt n x), <- (ridx_pt n y), E by assumption. reflexivity.
    + apply NoDup_vidx.
  - intros p. rewrite elem_of_rpoints, elem_of_list_fmap. split.
    + intros Hp. exists (ridx n p). rewrite rpt_idx by assumption. split; [reflexivity|].
      apply elem_of_vidx; [exact F|]. apply (ridx_on n p F Hp).
    + intros (i & -> & Hi). apply elem_of_vidx in Hi; [|exact F]. apply rpt_on, Hi.
Qed.

Lemma rcount_icount n (P : pos) (f : nat -> option color) c :
  fits n -> (forall i, vi n i -> P (rpt n i) = f i) -> rcount n P c = ricount n f c.
Proof.
  intros F H. unfold rcount, ricount. rewrite (rpoints_perm n F).
  assert (G : forall l, (forall i, i ∈ l -> P (rpt n i) = f i) ->
     length (filter (fun p => P p = Some c) (rpt n <$> l)) = length (filter (fun j => f j = Some c) l)).
  { induction l as [|a l IH]; intros Hl; [reflexivity|]. rewrite fmap_cons, !filter_cons, (Hl a) by left.
    specialize (IH (fun i Hi => Hl i (elem_of_list_further _ _ _ Hi))).
    destruct (decide (f a = Some c)); cbn; rewrite IH; reflexivity. }
  apply G. intros i Hi. apply elem_of_vidx in Hi; [|exact F]. apply H, Hi.
Qed.

(** congruence *)
Lemma rsame_pos_sym n P Q : rsame_pos n P Q -> rsame_pos n Q P.
Proof. intros H p Hp. symmetry. apply H, Hp. Qed.

Lemma rsame_pos_refl n P : rsame_pos n P P.
Proof. intros p _. reflexivity. Qed.

Lemma rsame_pos_trans n P Q R : rsame_pos n P Q -> rsame_pos n Q R -> rsame_pos n P R.
Proof. intros H1 H2 p Hp. rewrite (H1 p Hp). apply H2, Hp. Qed.

Lemma rconnected_ext n P Q a b : rsame_pos n P Q -> rconnected n P a b -> rconnected n Q a b.
Proof.
  intros H HC. induction HC as [|a b d (H1 & H2 & H3 & H4) _ IH]; [apply rtc_refl|].
  eapply rtc_l; [|exact IH]. repeat split; try apply H1; try apply H2; try assumption.
  rewrite <- (H a H1), <- (H b H2). exact H4.
Qed.

Lemma rconnected_on n P a b : ron n a -> rconnected n P a b -> ron n b.
Proof. intros Ha H. induction H as [|a b d (H1 & H2 & H3 & H4) _ IH]; [exact Ha|]. apply IH, H2. Qed.

Lemma rconnected_same n P a b : rconnected n P a b -> P a = P b.
Proof. intros H. induction H as [|a b d (H1 & H2 & H3 & H4) _ IH]; [reflexivity|]. congruence. Qed.

Lemma rconnected_sym n P a b : rconnected n P a b -> rconnected n P b a.
Proof.
  apply rtc_sym. intros x y (H1 & H2 & H3 & H4). repeat split; try apply H1; try apply H2; [|congruence].
  apply adj_sym, H3.
Qed.

Lemma rconnected_trans n P a b d : rconnected n P a b -> rconnected n P b d -> rconnected n P a d.
Proof. intros H1 H2. etransitivity; eassumption. Qed.

Lemma rliberty_ext n P Q p l : rsame_pos n P Q -> rliberty n P p l -> rliberty n Q p l.
Proof.
  intros H (H1 & H2 & q & H3 & H4). split; [exact H1|]. split; [rewrite <- (H l H1); exact H2|].
  exists q. split; [eapply rconnected_ext; eassumption|exact H4].
Qed.

Lemma rbreathes_ext n P Q p : rsame_pos n P Q -> rbreathes n P p <-> rbreathes n Q p.
Proof.
  intros H. split; intros [l Hl]; exists l; eapply rliberty_ext; try eassumption. apply rsame_pos_sym, H.
Qed.

Lemma rbreathes_connected n P a b : rconnected n P a b -> rbreathes n P a -> rbreathes n P b.
Proof.
  intros H (l & H1 & H2 & q & H3 & H4). exists l. split; [exact H1|]. split; [exact H2|]. exists q.
  split; [|exact H4]. eapply rconnected_trans; [apply rconnected_sym, H|exact H3].
Qed.

Lemma rput_ext n P Q p c : rsame_pos n P Q -> rsame_pos n (put P p c) (put Q p c).
Proof. intros H q Hq. unfold put. destruct (decide (q = p)); [reflexivity|]. apply H, Hq. Qed.

Lemma rtaken_ext n P Q p c q : rsame_pos n P Q -> rtaken n P p c q -> rtaken n Q p c q.
Proof.
  intros H (t & H1 & H2 & H3 & H4 & H5). exists t. split; [exact H1|]. split; [exact H2|].
  split; [rewrite <- (H t H1); exact H3|]. split; [eapply rconnected_ext; eassumption|].
  intros HB. apply H5. revert HB. apply rbreathes_ext, H.
Qed.

Lemma rcleared_ext n (D D' : coord -> Prop) P P' Q Q' :
  (forall q, ron n q -> D q <-> D' q) -> rsame_pos n P P' -> rsame_pos n Q Q' ->
  rcleared n D P Q -> rcleared n D' P' Q'.
Proof.
  intros HD HP HQ H q Hq. destruct (H q Hq) as [H1 H2]. rewrite <- (HP q Hq), <- (HQ q Hq).
  rewrite <- (HD q Hq). tauto.
Qed.

Lemma rgo_move_ext s n P P' p c R R' :
  rsame_pos n P P' -> rsame_pos n R R' -> rgo_move s n P p c R -> rgo_move s n P' p c R'.
Proof.
  intros HP HR (Q & H1 & H2). exists Q. split.
  - eapply rcleared_ext; [|apply rput_ext, HP|apply rsame_pos_refl|exact H1].
    intros q Hq. split; apply rtaken_ext, rput_ext; [exact HP|apply rsame_pos_sym, HP].
  - eapply rcleared_ext; [|apply rsame_pos_refl|exact HR|exact H2]. tauto.
Qed.

(** chains *)
Lemma rconnected_cell n g p q k :
  rwf n g -> ron n p -> cell g (ridx n p) = Some k ->
  rconnected n (pos_of g) p q <-> ron n q /\ cell g (ridx n q) = Some k.
Proof.
  intros W Hp Hk. pose proof (rwf_n n g W) as F. split.
  - intros H. induction H as [|a b d (H1 & H2 & H3 & H4) _ IH]; [tauto|]. apply IH; [exact H2|].
    rewrite !(rpos_of_col n g) in H4 by assumption.
    destruct (cell g (ridx n b)) as [k'|] eqn:Eb.
    + f_equal. symmetry. apply (rwf_max n g W (ridx n a) (ridx n b)); try assumption.
      apply radj_nb; assumption.
    + destruct (rcol_cell n g _ _ W Hk) as (grp & _ & Hc). unfold col at 2 in H4. rewrite Eb in H4. congruence.
  - intros [Hq Hkq].
    assert (H : rtc (rgstep n g k) (ridx n p) (ridx n q)) by (apply (rwf_conn n g W); assumption).
    rewrite <- (rpt_idx n p F Hp), <- (rpt_idx n q F Hq). clear -H W F.
    induction H as [a|a b d (H1 & H2 & H3) _ IH]; [apply rtc_refl|].
    eapply rtc_l; [|exact IH].
    assert (Ha : vi n a) by (eapply rwf_on; eassumption).
    assert (Hb : vi n b) by (eapply rwf_on; eassumption).
    split; [apply rpt_on, Ha|]. split; [apply rpt_on, Hb|]. split.
    + apply (radj_nb n); [exact F|apply rpt_on; assumption..|]. rewrite !ridx_pt by assumption. exact H1.
    + rewrite !(rpos_of_col n g) by (try apply rpt_on; assumption). rewrite !ridx_pt by assumption.
      unfold col. rewrite H2, H3. reflexivity.
Qed.

Lemma rliberty_lbit n g p k grp l :
  rwf n g -> ron n p -> cell g (ridx n p) = Some k -> live g k = Some grp ->
  rliberty n (pos_of g) p l <-> ron n l /\ lbit (g_liberties grp) (ridx n l) = true.
Proof.
  intros W Hp Hk Hg. pose proof (rwf_n n g W) as F. unfold rliberty. split.
  - intros (Hl & Hn & q & Hq & Ha). split; [exact Hl|].
    pose proof (rconnected_on n _ p q Hp Hq) as Hqo. apply (rconnected_cell n g p q k W Hp Hk) in Hq as [_ Hq].
    apply (rwf_lib n g W k grp _ Hg). split.
    + rewrite (rpos_of_col n g l W Hl) in Hn. apply (rcol_None n g _ W), Hn.
    + exists (ridx n q). split; [exact Hq|]. apply radj_nb; assumption.
  - intros [Hl Hb]. apply (rwf_lib n g W k grp _ Hg) in Hb as (Hc & x & Hx & Hnb).
    split; [exact Hl|]. split.
    + rewrite (rpos_of_col n g l W Hl). apply (rcol_None n g _ W), Hc.
    + assert (Hxn : vi n x) by (eapply rwf_on; eassumption).
      exists (rpt n x). split.
      * apply (rconnected_cell n g p _ k W Hp Hk). rewrite ridx_pt by exact Hxn. split; [apply rpt_on, Hxn|exact Hx].
      * apply (radj_nb n); [exact F|apply rpt_on, Hxn|exact Hl|]. rewrite ridx_pt by exact Hxn. exact Hnb.
Qed.

(** liberties only ever point at the board *)
Lemma rlbit_on n g k grp j : rwf n g -> live g k = Some grp -> lbit (g_liberties grp) j = true -> vi n j.
Proof.
  intros W Hg Hb. apply (rwf_lib n g W k grp _ Hg) in Hb as (_ & x & Hx & Hnb).
  eapply rnb_vi; [exact (rwf_n n g W)| |exact Hnb]. eapply rwf_on; eassumption.
Qed.

Lemma rbreathes_lbit n g p k grp :
  rwf n g -> ron n p -> cell g (ridx n p) = Some k -> live g k = Some grp ->
  rbreathes n (pos_of g) p <-> exists j, lbit (g_liberties grp) j = true.
Proof.
  intros W Hp Hk Hg. pose proof (rwf_n n g W) as F. unfold rbreathes. split.
  - intros [l Hl]. apply (rliberty_lbit n g p k grp l W Hp Hk Hg) in Hl as [_ Hl]. eauto.
  - intros [j Hj]. pose proof (rlbit_on n g k grp j W Hg Hj) as Hjn. exists (rpt n j).
    apply (rliberty_lbit n g p k grp _ W Hp Hk Hg). rewrite ridx_pt by exact Hjn. split; [apply rpt_on, Hjn|exact Hj].
Qed.

Lemma rbreathes_dead n g p k grp :
  rwf n g -> ron n p -> cell g (ridx n p) = Some k -> live g k = Some grp ->
  ~ rbreathes n (pos_of g) p <-> is_dead grp = true.
Proof.
  intros W Hp Hk Hg. rewrite (rbreathes_lbit n g p k grp W Hp Hk Hg).
  rewrite is_dead_spec by (apply (wf0_chain g (rwf_0 n g W) k grp Hg)). split.
  - intros H j. destruct (lbit (g_liberties grp) j) eqn:E; [|reflexivity]. exfalso. eauto.
  - intros H [j Hj]. specialize (H j). congruence.
Qed.

Lemma rcount_pos n g c : rwf n g -> rcount n (pos_of g) c = ricount n (col g) c.
Proof.
  intros W. apply rcount_icount; [exact (rwf_n n g W)|]. intros i Hi. rewrite (rpos_of_col n g) by (try apply rpt_on; assumption).
  rewrite ridx_pt by exact Hi. reflexivity.
Qed.

Lemma rcount_ext n P Q c : rsame_pos n P Q -> rcount n P c = rcount n Q c.
Proof.
  intros H. unfold rcount. f_equal. apply Capture.filter_ext_in. intros p Hp. apply elem_of_rpoints in Hp.
  rewrite (H p Hp). reflexivity.
Qed.

(** a move: put the stone, clear the captures *)
Theorem rmove_spec dbg n g p c s :
  rwf n g -> ron n p -> pos_of g p = None ->
  (push_wth_feedback dbg g p c = Panic /\ (N.of_nat (length (chains g)) = 65535)%N /\
   ~ rone_friend n (pos_of g) p c) \/
  exists g1 dead u g' removed ko,
    push_wth_feedback dbg g p c = Ok (g1, dead, u) /\
    remove_captured_stones_aux dbg g1 s dead u = Ok (g', removed, ko) /\
    rwf n g1 /\ rwf n g' /\
    rsame_pos n (pos_of g1) (put (pos_of g) p c) /\
    (rone_friend n (pos_of g) p c /\ length (chains g') = length (chains g) \/
     ~ rone_friend n (pos_of g) p c /\ length (chains g') = S (length (chains g))) /\
    length (chains g1) = length (chains g') /\
    rgo_move s n (pos_of g) p c (pos_of g') /\
    (forall x, rem_of removed x + N.of_nat (rcount n (pos_of g') x) =
               N.of_nat (rcount n (put (pos_of g) p c) x))%N /\
    (rem_total removed + 361 * N.of_nat (dslots g) <= 361 * N.of_nat (dslots g'))%N /\
    (forall q, ko = Some q <-> ron n q /\ rtaken n (put (pos_of g) p c) p c q /\
                 forall q', ron n q' -> rtaken n (put (pos_of g) p c) p c q' -> q' = q) /\
    (dead = [] <-> forall q, ron n q -> ~ rtaken n (put (pos_of g) p c) p c q).
Proof.
  intros W Hp Hemp. pose proof (rwf_n n g W) as F. rewrite (rpos_of_col n g p W Hp) in Hemp. apply (rcol_None n g _ W) in Hemp.
  destruct p as [r cc]. destruct Hp as [Hr Hcc]. cbn [fst snd] in Hr, Hcc.
  set (p := (r, cc)) in *. assert (Hp : ron n p) by (split; assumption).
  pose proof (rpush_spec dbg n g r cc c W Hr Hcc Hemp) as HPS.
  assert (Hfr : rone_friend n (pos_of g) p c <-> rone_same n g (ridx n p) c).
  { split.
    - intros (q & Hq & Ha & Hc & Huniq). exists (ridx n q). split; [apply radj_nb; assumption|].
      rewrite <- (rpos_of_col n g q W Hq). split; [exact Hc|]. intros j' Hj' Hc'.
      assert (Hjn : vi n j').
      { apply col_Some_inv in Hc' as (k & _ & Hk & _). eapply (rwf_on n g W); eassumption. }
      rewrite (rpos_of_col n g q W Hq) in Hc. apply col_Some_inv in Hc as (k & gk & Hk & _).
      specialize (Huniq (rpt n j') (rpt_on n j' Hjn)).
      assert (Hcon : rconnected n (pos_of g) q (rpt n j')).
      { apply Huniq.
        - apply (radj_nb n); [exact F|exact Hp|apply rpt_on, Hjn|]. rewrite ridx_pt by exact Hjn. exact Hj'.
        - rewrite (rpos_of_col n g) by (try apply rpt_on; assumption). rewrite ridx_pt by exact Hjn. exact Hc'. }
      apply (rconnected_cell n g q _ k W Hq Hk) in Hcon as [_ Hcon]. rewrite ridx_pt in Hcon by exact Hjn. congruence.
    - intros (j & Hj & Hc & Huniq).
      assert (Hjn : vi n j).
      { apply col_Some_inv in Hc as (k & _ & Hk & _). eapply (rwf_on n g W); eassumption. }
      exists (rpt n j). split; [apply rpt_on, Hjn|]. split; [|split].
      + apply (radj_nb n); [exact F|exact Hp|apply rpt_on, Hjn|]. rewrite ridx_pt by exact Hjn. exact Hj.
      + rewrite (rpos_of_col n g) by (try apply rpt_on; assumption). rewrite ridx_pt by exact Hjn. exact Hc.
      + intros q' Hq' Ha' Hc'. rewrite (rpos_of_col n g q' W Hq') in Hc'.
        specialize (Huniq (ridx n q') (proj1 (radj_nb n p q' F Hp Hq') Ha') Hc').
        apply col_Some_inv in Hc as (k & gk & Hk & _).
        apply (rconnected_cell n g _ q' k W (rpt_on n j Hjn)); [rewrite ridx_pt by exact Hjn; exact Hk|]. split; [exact Hq'|].
        congruence. }
  assert (Hfr' : ~ rone_same n g (ridx n p) c -> ~ rone_friend n (pos_of g) p c).
  { intros H Hf. apply H, Hfr, Hf. }
  destruct HPS as [(HP & HF & HN)|(g1 & dead & u & E1 & W1 & L1 & Hu & Hds & Col1 & _ & _ & Nd & _ & Hdead)];
    [left; split; [exact HP|]; split; [exact HF|apply Hfr', HN]|right].
  fold p in E1. change (r * fst n + cc)%nat with (ridx n p) in *. clearbody p. clear r cc Hr Hcc.
  assert (HP1 : rsame_pos n (pos_of g1) (put (pos_of g) p c)).
  { intros q Hq. rewrite (rpos_of_col n g1 q W1 Hq), Col1. unfold put. destruct (decide (q = p)) as [->|Hqp].
    - destruct (decide (ridx n p = ridx n p)); [reflexivity|contradiction].
    - destruct (decide (ridx n q = ridx n p)) as [D|D].
      + destruct Hqp. apply (ridx_inj n); assumption.
      + rewrite (rpos_of_col n g q W Hq). reflexivity. }
  destruct (rcol_cell n g1 _ _ W1 Hu) as (gu & Hgu & Hcu).
  assert (Hcolu : g_color gu = c).
  { rewrite Col1 in Hcu. destruct (decide (ridx n p = ridx n p)); [congruence|contradiction]. }
  assert (Hdead' : forall k, k ∈ dead -> exists grp, live g1 k = Some grp /\ g_color grp = opp c).
  { intros k Hk. apply Hdead in Hk as (grp & H1 & H2 & _). eauto. }
  destruct (rcaptured_spec dbg n g1 s dead u gu c W1 Nd Hgu Hcolu Hdead')
    as (g2 & gu2 & g' & removed & ko & E2 & W2 & W' & L2 & C2 & Col2 & Hgu2 & Hsh & Col' & R1 & R3 & R2 & Hko).
  (* what the dead groups are *)
  assert (Htaken : forall q, ron n q -> rtaken n (pos_of g1) p c q <-> cell g1 (ridx n q) ∈ (Some <$> dead)).
  { intros q Hq. split.
    - intros (t & Ht & Hadj & Hct & Hconn & Hnb).
      rewrite (rpos_of_col n g1 t W1 Ht) in Hct. apply col_Some_inv in Hct as (k & gk & Hk & Hgk & Hck).
      apply (rconnected_cell n g1 t q k W1 Ht Hk) in Hconn as [_ Hkq]. rewrite Hkq.
      apply list_In_mapsome, Hdead. exists gk. split; [exact Hgk|]. split; [exact Hck|]. split.
      + intros j. destruct (lbit (g_liberties gk) j) eqn:Eb; [|reflexivity]. exfalso. apply Hnb.
        apply (rbreathes_lbit n g1 t k gk W1 Ht Hk Hgk). eauto.
      + exists (ridx n t). split; [|exact Hk]. apply radj_nb; assumption.
    - intros H. apply elem_of_list_fmap in H as (k & Hkq & Hk). apply Hdead in Hk as (gk & Hgk & Hck & Hb & j & Hj & Hcj).
      assert (Hjn : vi n j) by (eapply (rwf_on n g1 W1); eassumption).
      exists (rpt n j). split; [apply rpt_on, Hjn|]. split.
      + apply (radj_nb n); [exact F|exact Hp|apply rpt_on, Hjn|]. rewrite ridx_pt by exact Hjn. exact Hj.
      + rewrite (rpos_of_col n g1) by (try apply rpt_on; assumption). rewrite ridx_pt by exact Hjn. split.
        * unfold col. rewrite Hcj, Hgk, Hck. reflexivity.
        * assert (Hcj' : cell g1 (ridx n (rpt n j)) = Some k) by (rewrite ridx_pt by exact Hjn; exact Hcj).
          split; [apply (rconnected_cell n g1 _ q k W1 (rpt_on n j Hjn) Hcj'); tauto|].
          rewrite (rbreathes_lbit n g1 _ k gk W1 (rpt_on n j Hjn) Hcj' Hgk). intros [x Hx]. rewrite Hb in Hx. discriminate. }
  assert (Htaken' : forall q, ron n q -> rtaken n (put (pos_of g) p c) p c q <-> cell g1 (ridx n q) ∈ (Some <$> dead)).
  { intros q Hq. rewrite <- Htaken by exact Hq. split; apply rtaken_ext; [apply rsame_pos_sym|]; exact HP1. }
  exists g1, dead, u, g', removed, ko. split; [exact E1|]. split; [exact E2|]. split; [exact W1|]. split; [exact W'|].
  split; [exact HP1|].
  split. { destruct L1 as [[H1 H2]|[H1 H2]]; [left|right]; (split; [|congruence]); [apply Hfr, H1|apply Hfr', H1]. }
  split; [congruence|].
  assert (Hcell2u : forall q, ron n q -> rconnected n (pos_of g2) p q <-> cell g1 (ridx n q) = Some u).
  { intros q Hq. assert (Hu2 : cell g2 (ridx n p) = Some u).
    { rewrite C2, Hu. destruct (decide (Some u ∈ Some <$> dead)) as [D|D]; [|reflexivity].
      apply list_In_mapsome in D. destruct (Hdead' u D) as (gx & Hx & Hcx). destruct (opp_ne c). congruence. }
    rewrite (rconnected_cell n g2 p q u W2 Hp Hu2). rewrite C2.
    destruct (decide (cell g1 (ridx n q) ∈ Some <$> dead)) as [D|D]; [|tauto]. split; [intros [_ H]; discriminate|].
    intros H. rewrite H in D. apply list_In_mapsome in D. destruct (Hdead' u D) as (gx & Hx & Hcx). destruct (opp_ne c). congruence. }
  assert (Hbr2 : ~ rbreathes n (pos_of g2) p <-> is_dead gu2 = true).
  { apply (rbreathes_dead n g2 p u gu2 W2 Hp); [|exact Hgu2]. apply (rconnected_cell n g2 p p u W2 Hp); [|apply rtc_refl].
    rewrite C2, Hu. destruct (decide (Some u ∈ Some <$> dead)) as [D|D]; [|reflexivity].
    apply list_In_mapsome in D. destruct (Hdead' u D) as (gx & Hx & Hcx). destruct (opp_ne c). congruence. }
  split; [|split; [|split; [|split]]].
  - exists (pos_of g2). split.
    + intros q Hq. rewrite <- (HP1 q Hq), (rpos_of_col n g2 q W2 Hq), (rpos_of_col n g1 q W1 Hq), Col2, (Htaken' q Hq).
      destruct (decide (cell g1 (ridx n q) ∈ Some <$> dead)); tauto.
    + intros q Hq. rewrite (rpos_of_col n g' q W' Hq), (rpos_of_col n g2 q W2 Hq), Col', Hbr2, (Hcell2u q Hq).
      destruct (decide (s = true /\ is_dead gu2 = true /\ cell g1 (ridx n q) = Some u)); tauto.
  - intros x. rewrite (rcount_pos n g' x W'). rewrite <- (rcount_ext n _ _ x HP1), (rcount_pos n g1 x W1). apply R1.
  - pose proof (dslots_mono g g1 ltac:(lia) Hds). lia.
  - intros q. rewrite Hko.
    (* when something was rtaken the stone rbreathes *)
    assert (Halive : forall k, k ∈ dead -> is_dead gu2 = false).
    { intros k Hk. destruct (is_dead gu2) eqn:Ed; [|reflexivity]. exfalso.
      pose proof Hk as Hk'. apply Hdead in Hk' as (gk & Hgk & Hck & _ & j & Hj & Hcj).
      assert (Hjn : vi n j) by (eapply (rwf_on n g1 W1); eassumption).
      assert (~ rbreathes n (pos_of g2) p) as HN by (apply Hbr2; reflexivity). apply HN.
      exists (rpt n j). split; [apply rpt_on, Hjn|]. split.
      - rewrite (rpos_of_col n g2) by (try apply rpt_on; assumption). rewrite ridx_pt by exact Hjn. rewrite Col2, Hcj.
        destruct (decide (Some k ∈ Some <$> dead)) as [|D]; [reflexivity|]. exfalso. apply D, list_In_mapsome, Hk.
      - exists p. split; [apply rtc_refl|]. apply (radj_nb n); [exact F|exact Hp|apply rpt_on, Hjn|].
        rewrite ridx_pt by exact Hjn. exact Hj. }
    split.
    + destruct dead as [|d [|d2 ds]]; [discriminate| |discriminate].
      destruct (live g1 d) as [gd|] eqn:Egd; [|discriminate].
      destruct ((g_num_stones gd =? 1)%nat && negb (s && is_dead gu2)) eqn:Eb; [|discriminate].
      apply andb_true_iff in Eb as [Eb _]. apply Nat.eqb_eq in Eb. intros [= <-].
      destruct (rgroup_points n g1 d gd W1 Egd) as (l & Hnd & HL & Hm & Hh). rewrite Eb in HL.
      destruct l as [|o [|]]; try discriminate. cbn in Hh. injection Hh as ->.
      assert (Ho : cell g1 (g_origin gd) = Some d) by (apply Hm; left).
      assert (Hon : vi n (g_origin gd)) by (eapply (rwf_on n g1 W1); eassumption).
      change (g_origin gd / fst n, g_origin gd mod fst n)%nat with (rpt n (g_origin gd)).
      split; [apply rpt_on, Hon|]. split.
      * apply Htaken'; [apply rpt_on, Hon|]. rewrite ridx_pt by exact Hon. rewrite Ho. apply list_In_mapsome. left.
      * intros q' Hq' Ht. apply Htaken' in Ht; [|exact Hq']. apply elem_of_list_fmap in Ht as (k & Hk1 & Hk2).
        apply elem_of_list_singleton in Hk2. subst k. apply Hm, elem_of_list_singleton in Hk1.
        rewrite <- Hk1. symmetry. apply rpt_idx; assumption.
    + intros (Hq & Ht & Huniq). apply Htaken' in Ht; [|exact Hq]. apply elem_of_list_fmap in Ht as (d & Hd1 & Hd2).
      assert (Honly : forall k, k ∈ dead -> k = d).
      { intros k Hk. pose proof Hk as Hk'. apply Hdead in Hk' as (gk & Hgk & Hck & _ & j & Hj & Hcj).
        assert (Hjn : vi n j) by (eapply (rwf_on n g1 W1); eassumption).
        assert (rpt n j = q).
        { apply Huniq; [apply rpt_on, Hjn|]. apply Htaken'; [apply rpt_on, Hjn|]. rewrite ridx_pt by exact Hjn.
          rewrite Hcj. apply list_In_mapsome, Hk. }
        subst q. rewrite ridx_pt in Hd1 by exact Hjn. congruence. }
      assert (Hdd : dead = [d]).
      { destruct dead as [|a [|b ds]].
        - apply elem_of_nil in Hd2. destruct Hd2.
        - f_equal. apply Honly. left.
        - exfalso. apply NoDup_cons in Nd as [Ha _]. apply Ha. rewrite (Honly a), (Honly b); [left|right; left|left]. }
      destruct (Hdead' d Hd2) as (gd & Hgd & _). rewrite (Halive d Hd2), andb_false_r, Hdd, Hgd.
      destruct (rgroup_points n g1 d gd W1 Hgd) as (l & Hnd & HL & Hm & Hh).
      assert (Hl : forall j, j ∈ l -> j = ridx n q).
      { intros j Hj. apply Hm in Hj. assert (Hjn : vi n j) by (eapply (rwf_on n g1 W1); eassumption).
        rewrite <- (Huniq (rpt n j)); [symmetry; apply ridx_pt, Hjn|apply rpt_on, Hjn|].
        apply Htaken'; [apply rpt_on, Hjn|]. rewrite ridx_pt by exact Hjn. rewrite Hj. apply list_In_mapsome, Hd2. }
      assert (Hl1 : l = [ridx n q]).
      { destruct l as [|a [|b l']]; [discriminate| |].
        - f_equal. apply Hl. left.
        - exfalso. apply NoDup_cons in Hnd as [Ha _]. apply Ha. rewrite (Hl a), (Hl b); [left|right; left|left]. }
      rewrite Hl1 in HL, Hh. cbn in HL, Hh. injection Hh as Hh. rewrite <- HL, <- Hh.
      change (ridx n q / fst n, ridx n q mod fst n)%nat with (rpt n (ridx n q)).
      rewrite rpt_idx by assumption. reflexivity.
  - split.
    + intros -> q Hq Ht. apply Htaken' in Ht; [|exact Hq]. apply elem_of_nil in Ht. exact Ht.
    + intros H. destruct dead as [|d ds]; [reflexivity|]. exfalso.
      assert (Hd : d ∈ d :: ds) by left. pose proof Hd as Hk'. apply Hdead in Hk' as (gk & Hgk & Hck & _ & j & Hj & Hcj).
      assert (Hjn : vi n j) by (eapply (rwf_on n g1 W1); eassumption).
      apply (H (rpt n j)); [apply rpt_on, Hjn|]. apply Htaken'; [apply rpt_on, Hjn|]. rewrite ridx_pt by exact Hjn.
      rewrite Hcj. apply list_In_mapsome, Hd.
Qed.

