(** What the query functions of the board return, on boards whose width divides
    their height. *)
From stdpp Require Import relations sorting.
From Verif Require Import MonadFacts Spec Goban BitsetFacts CoordFacts Struct Push Inv Remove Capture Bridge GameFacts RulesFacts BoardFacts.
From Verif Require Import RectSpec RectCoord RectInv RectRemove RectCapture RectBridge RectGame RectRules.
From Coq Require Import Lia.

Definition rnbrs (n : size_t) (p : coord) : list coord :=
  let (r, c) := p in
  (if (S r <? fst n)%nat then [(S r, c)] else []) ++
  (if (0 <? r)%nat then [(r - 1, c)%nat] else []) ++
  (if (S c <? snd n)%nat then [(r, S c)] else []) ++
  (if (0 <? c)%nat then [(r, c - 1)%nat] else []).

Lemma relem_of_nbrs n p q : ron n p -> q ∈ rnbrs n p <-> ron n q /\ adj p q.
Proof.
  destruct p as [r c], q as [a b]. unfold ron, adj, rnbrs. cbn [fst snd]. intros [Hr Hc].
  rewrite !elem_of_app.
  assert (E : forall (t : bool) (x : coord), (a, b) ∈ (if t then [x] else []) <-> t = true /\ (a, b) = x).
  { intros [] x; [rewrite elem_of_list_singleton|rewrite elem_of_nil]; intuition congruence. }
  rewrite !E, !Nat.ltb_lt. split.
  - intros [[H [= -> ->]]|[[H [= -> ->]]|[[H [= -> ->]]|[H [= -> ->]]]]]; lia.
  - intros [Hab [[-> [->| ->]]|[-> [->| ->]]]].
    + right. right. right. split; [lia|]. f_equal. lia.
    + right. right. left. split; [lia|reflexivity].
    + right. left. split; [lia|]. f_equal. lia.
    + left. split; [lia|reflexivity].
Qed.

Lemma rNoDup_nbrs n p : NoDup (rnbrs n p).
Proof.
  destruct p as [r c]. unfold rnbrs.
  destruct (S r <? fst n)%nat; destruct (Nat.ltb_spec 0 r); destruct (S c <? snd n)%nat; destruct (Nat.ltb_spec 0 c); cbn [app];
    repeat (apply NoDup_cons; split; [rewrite ?elem_of_cons, ?elem_of_nil; intros Hx;
      repeat (destruct Hx as [Hx|Hx]); try (injection Hx; lia); assumption|]); apply NoDup_nil_2.
Qed.

Lemma rnbrs_length n p : (length (rnbrs n p) <= 4)%nat.
Proof.
  destruct p as [r c]. unfold rnbrs.
  destruct (S r <? fst n)%nat; destruct (0 <? r)%nat; destruct (S c <? snd n)%nat; destruct (0 <? c)%nat; cbn; lia.
Qed.

Lemma rvalid_coords_ok dbg n p : fits n -> ron n p -> valid_coords dbg p n = Ok (rnbrs n p).
Proof. destruct p as [r c]. intros Hn [Hr Hc]. apply valid_coords_rect; assumption. Qed.

Lemma rneighbors_ok dbg n g p : rwf n g -> ron n p -> neighbors_coords dbg g p = Ok (rnbrs n p).
Proof. intros W Hp. unfold neighbors_coords. rewrite (rwf_size n g W). apply rvalid_coords_ok; [apply (rwf_n n g W)|exact Hp]. Qed.

Lemma rget_color_pos n g p : rwf n g -> ron n p -> get_color g p = Ok (pos_of g p).
Proof. intros W Hp. rewrite (rpos_of_col n g p W Hp). apply rget_color_ok; assumption. Qed.

Lemma rconnected_points_ok dbg n g p : rwf n g -> ron n p ->
  get_connected_points dbg g p = Ok (List.map (fun q => (q, pos_of g q)) (rnbrs n p)).
Proof.
  intros W Hp. unfold get_connected_points. rewrite (rneighbors_ok dbg n g p W Hp). cbn [bind].
  apply mapM_ok. intros q Hq. apply (relem_of_nbrs n p q Hp) in Hq as [Hq _]. rewrite (rget_color_pos n g q W Hq). reflexivity.
Qed.

Lemma rhas_liberties_ok dbg n g p : rwf n g -> ron n p ->
  exists v, has_liberties dbg g p = Ok v /\ (v = true <-> exists q, ron n q /\ adj p q /\ pos_of g q = None).
Proof.
  intros W Hp. unfold has_liberties. rewrite (rneighbors_ok dbg n g p W Hp). cbn [bind].
  rewrite (anyM_ok _ (fun q => mcolor_eqb (pos_of g q) None)).
  - eexists. split; [reflexivity|]. rewrite existsb_spec. split.
    + intros (q & Hq & E). apply (relem_of_nbrs n p q Hp) in Hq as [Hq Ha]. exists q.
      destruct (mcolor_eqb_spec (pos_of g q) None); [tauto|discriminate].
    + intros (q & Hq & Ha & E). exists q. split; [apply (relem_of_nbrs n p q Hp); tauto|]. rewrite E. reflexivity.
  - intros q Hq. apply (relem_of_nbrs n p q Hp) in Hq as [Hq _]. rewrite (rget_color_pos n g q W Hq). reflexivity.
Qed.

(** ** Groups *)

(** [grp] is the group of the stone on [q] *)
Definition rgroup_at (n : size_t) (g : goban) (q : coord) (grp : group) : Prop :=
  exists k, cell g (ridx n q) = Some k /\ live g k = Some grp.

Lemma rconnected_groups_ok dbg n g p : rwf n g -> ron n p ->
  exists l, get_connected_groups dbg g p = Ok l /\
    forall grp, grp ∈ l <-> exists q, ron n q /\ adj p q /\ rgroup_at n g q grp.
Proof.
  intros W Hp. unfold get_connected_groups. rewrite (rwf_size n g W). change (two_to_1dim n p) with (ridx n p).
  destruct (rconnected_spec dbg n g (ridx n p) (rwf_n n g W) (rwf_size n g W) (wf0_board g (rwf_0 n g W)) (ridx_on n p (rwf_n n g W) Hp)) as (l & -> & _ & Hl).
  cbn [bind].
  assert (Hlive : forall k, k ∈ l -> exists grp, live g k = Some grp).
  { intros k Hk. apply Hl in Hk as (j & _ & Hk). destruct (wf0_cell g (rwf_0 n g W) j k Hk) as [grp H]. eauto. }
  assert (HH : exists gs, mapM (chain_at (chains g)) l = Ok gs /\ forall grp, grp ∈ gs <-> exists k, k ∈ l /\ live g k = Some grp).
  { clear Hl. induction l as [|k l IH].
    - exists []. split; [reflexivity|]. intros grp. split; [intros H; apply elem_of_nil in H; destruct H|].
      intros (k & H & _). apply elem_of_nil in H. destruct H.
    - destruct (Hlive k) as [gk Hk]; [left|]. destruct IH as (gs & E & IH).
      + intros k' Hk'. apply Hlive. right. exact Hk'.
      + exists (gk :: gs). cbn [mapM]. rewrite (chain_at_live _ _ _ Hk), E. split; [reflexivity|]. intros grp.
        rewrite elem_of_cons, IH. split.
        * intros [->|(k' & H1 & H2)]; [exists k; split; [left|exact Hk]|exists k'; split; [right; exact H1|exact H2]].
        * intros (k' & H1 & H2). apply elem_of_cons in H1 as [->|H1]; [left; congruence|right; eauto]. }
  destruct HH as (gs & -> & Hgs). exists gs. split; [reflexivity|]. intros grp. rewrite Hgs. split.
  - intros (k & Hk & Hg). apply Hl in Hk as (j & Hj & Hk). pose proof (rwf_on n g W j k Hk) as Hjn.
    exists (rpt n j). split; [apply rpt_on, Hjn|]. split.
    + apply (radj_nb n); [exact (rwf_n n g W)|exact Hp|apply rpt_on, Hjn|]. rewrite ridx_pt by exact Hjn. exact Hj.
    + exists k. rewrite ridx_pt by exact Hjn. tauto.
  - intros (q & Hq & Ha & k & H1 & H2). exists k. split; [|exact H2]. apply Hl. exists (ridx n q).
    split; [apply radj_nb; [exact (rwf_n n g W)|assumption..]|exact H1].
Qed.

Lemma rgroup_at_ex n g q : rwf n g -> ron n q -> pos_of g q <> None -> exists grp, rgroup_at n g q grp.
Proof. intros W Hq H. destruct (rstone_group n g q W Hq H) as (k & grp & H1 & H2 & _). exists grp, k. tauto. Qed.

Lemma rgroup_at_color n g q grp : rwf n g -> ron n q -> rgroup_at n g q grp -> pos_of g q = Some (g_color grp).
Proof.
  intros W Hq (k & H1 & H2). rewrite (rpos_of_col n g q W Hq). unfold col. rewrite H1, H2. reflexivity.
Qed.

Lemma rgroup_at_stone n g q grp : rwf n g -> ron n q -> rgroup_at n g q grp -> pos_of g q <> None.
Proof. intros W Hq H. rewrite (rgroup_at_color n g q grp W Hq H). discriminate. Qed.

Lemma rgroup_bits n g q grp : rwf n g -> rgroup_at n g q grp -> bits_ok (g_liberties grp).
Proof. intros W (k & _ & H). apply (wf0_chain g (rwf_0 n g W) k grp H). Qed.

Lemma rgroup_at_atari n g q grp : rwf n g -> ron n q -> rgroup_at n g q grp ->
  is_atari grp = true <-> exists l, forall l', rliberty n (pos_of g) q l' <-> l' = l.
Proof.
  intros W Hq HG. rewrite (is_atari_spec grp (rgroup_bits n g q grp W HG)). destruct HG as (k & H1 & H2). split.
  - intros (j & Hj). pose proof (rlbit_on n g k grp j W H2 (proj2 (Hj j) eq_refl)) as Hjn.
    exists (rpt n j). intros l'. rewrite (rliberty_lbit n g q k grp l' W Hq H1 H2), Hj. split.
    + intros [Hl <-]. symmetry. apply rpt_idx; [exact (rwf_n n g W)|exact Hl].
    + intros ->. split; [apply rpt_on, Hjn|apply ridx_pt, Hjn].
  - intros (l & Hl). exists (ridx n l). intros i. split.
    + intros Hi. pose proof (rlbit_on n g k grp i W H2 Hi) as Hin. rewrite <- (ridx_pt n i Hin). f_equal. apply Hl.
      apply (rliberty_lbit n g q k grp _ W Hq H1 H2). rewrite ridx_pt by exact Hin. split; [apply rpt_on, Hin|exact Hi].
    + intros ->. apply (rliberty_lbit n g q k grp l W Hq H1 H2). apply Hl. reflexivity.
Qed.

Lemma rgroup_at_dead n g q grp : rwf n g -> ron n q -> rgroup_at n g q grp ->
  is_dead grp = true <-> ~ rbreathes n (pos_of g) q.
Proof. intros W Hq (k & H1 & H2). symmetry. eapply rbreathes_dead; eassumption. Qed.

Lemma rgroup_liberties_ok n g q grp : rwf n g -> ron n q -> rgroup_at n g q grp ->
  exists l, group_liberties grp = Ok l /\ StronglySorted lt l /\ number_of_liberties grp = length l /\
    forall i, i ∈ l <-> exists p, i = ridx n p /\ rliberty n (pos_of g) q p.
Proof.
  intros W Hq HG. pose proof (rgroup_bits n g q grp W HG) as Hb. destruct HG as (k & H1 & H2).
  exists (lib_list (g_liberties grp)). unfold group_liberties. rewrite lib_iter_ones_spec by exact Hb.
  split; [reflexivity|]. split.
  { unfold lib_list. apply sorted_lfilter. generalize 0%nat, 368%nat. intros a len. revert a.
    induction len as [|len IH]; intros a; [constructor|]. cbn. constructor; [apply IH|]. apply Forall_forall.
    intros x Hx. apply elem_of_seq in Hx. lia. }
  split; [apply lib_count_ones_spec, Hb|].
  intros i. rewrite elem_of_lib_list by exact Hb. split.
  - intros Hi. pose proof (rlbit_on n g k grp i W H2 Hi) as Hin. exists (rpt n i). rewrite ridx_pt by exact Hin.
    split; [reflexivity|]. apply (rliberty_lbit n g q k grp _ W Hq H1 H2). rewrite ridx_pt by exact Hin. split; [apply rpt_on, Hin|exact Hi].
  - intros (p & -> & Hp). apply (rliberty_lbit n g q k grp p W Hq H1 H2) in Hp. tauto.
Qed.

Lemma rcontains_liberty_ok n g q grp p : rwf n g -> ron n q -> ron n p -> rgroup_at n g q grp ->
  exists v, contains_liberty grp (ridx n p) = Ok v /\ (v = true <-> rliberty n (pos_of g) q p).
Proof.
  intros W Hq Hp HG. pose proof (rgroup_bits n g q grp W HG) as Hb. destruct HG as (k & H1 & H2).
  unfold contains_liberty. pose proof (vi_361 n _ (rwf_n n g W) (ridx_on n p (rwf_n n g W) Hp)).
  rewrite lib_get_spec by (try exact Hb; lia). eexists. split; [reflexivity|].
  rewrite (rliberty_lbit n g q k grp p W Hq H1 H2). tauto.
Qed.

(** the stones of a group *)
Lemma rchain_stones_ok dbg n g q k grp : rwf n g -> ron n q -> cell g (ridx n q) = Some k -> live g k = Some grp ->
  exists l, group_iter dbg grp (next_stone g) = Ok l /\
    chain_stones dbg g k = Ok (List.map (fun i => (rpt n i, g_color grp)) l) /\
    NoDup l /\ length l = g_num_stones grp /\ head l = Some (g_origin grp) /\ last l = Some (g_last grp) /\
    (forall i, i ∈ l <-> exists p, i = ridx n p /\ ron n p /\ rconnected n (pos_of g) q p).
Proof.
  intros W Hq H1 H2. destruct (wf0_chain g (rwf_0 n g W) k grp H2) as [_ (l & R & Hm)].
  pose proof (wf0_iter dbg g k grp l) as Hit. specialize (Hit (rwf_0 n g W) R Hm).
  exists l. split; [exact Hit|].
  assert (Hn : forall i, i ∈ l -> vi n i) by (intros i Hi; apply Hm in Hi; apply (rwf_on n g W i k Hi)).
  split.
  { unfold chain_stones. rewrite (chain_at_live _ _ _ H2). cbn [bind]. rewrite Hit. cbn [bind].
    apply mapM_ok. intros i Hi. rewrite (rwf_size n g W).
    rewrite one_to_2dim_rect; [reflexivity|exact (rwf_n n g W)|exact (Hn i Hi)]. }
  split; [apply (ring_nodup _ _ _ R)|]. split; [apply (ring_num _ _ _ R)|].
  split; [apply (ring_head _ _ _ R)|]. split; [apply (ring_last _ _ _ R)|].
  intros i. rewrite Hm. split.
  - intros Hi. pose proof (rwf_on n g W i k Hi) as Hin. exists (rpt n i). rewrite ridx_pt by exact Hin.
    split; [reflexivity|]. split; [apply rpt_on, Hin|]. apply (rconnected_cell n g q _ k W Hq H1). rewrite ridx_pt by exact Hin.
    split; [apply rpt_on, Hin|exact Hi].
  - intros (p & -> & Hp & Hc). apply (rconnected_cell n g q p k W Hq H1) in Hc. tauto.
Qed.

(** a single stone *)
Lemma rgroup_at_single n g q grp : rwf n g -> ron n q -> rgroup_at n g q grp ->
  g_num_stones grp = 1%nat <-> forall t, rconnected n (pos_of g) q t -> t = q.
Proof.
  intros W Hq (k & H1 & H2). destruct (rchain_stones_ok true n g q k grp W Hq H1 H2) as (l & _ & _ & Nd & Hl & _ & _ & Hm).
  assert (Hq' : ridx n q ∈ l) by (apply Hm; exists q; repeat split; try apply Hq; apply rtc_refl).
  rewrite <- Hl. split.
  - intros E t Ht. destruct l as [|a [|b l]]; try discriminate.
    assert (Ho : ron n t) by (exact (rconnected_on n _ q t Hq Ht)).
    assert (Ht' : ridx n t ∈ [a]) by (apply Hm; exists t; tauto).
    apply elem_of_list_singleton in Ht', Hq'. apply (ridx_inj n); [exact (rwf_n n g W)|assumption..|]. congruence.
  - intros H. destruct l as [|a [|b l]]; [apply elem_of_nil in Hq'; destruct Hq'|reflexivity|]. exfalso.
    assert (Hall : forall i, i ∈ a :: b :: l -> i = ridx n q).
    { intros i Hi. apply Hm in Hi as (p & -> & Hp & Hc). rewrite (H p Hc). reflexivity. }
    apply NoDup_cons in Nd as [Hx _]. apply Hx. rewrite (Hall a), (Hall b); [left|right; left|left].
Qed.

Lemma rgroup_num_pos n g q grp : rwf n g -> ron n q -> rgroup_at n g q grp -> (1 <= g_num_stones grp)%nat.
Proof.
  intros W Hq (k & H1 & H2). destruct (rchain_stones_ok true n g q k grp W Hq H1 H2) as (l & _ & _ & Nd & Hl & _ & _ & Hm).
  assert (Hq' : ridx n q ∈ l) by (apply Hm; exists q; repeat split; try apply Hq; apply rtc_refl).
  rewrite <- Hl. destruct l; [apply elem_of_nil in Hq'; destruct Hq'|cbn; lia].
Qed.

(** ** Enumerations *)
