(** What the query functions of the board return on a well-formed board. *)
From stdpp Require Import relations sorting.
From Verif Require Import MonadFacts Spec Goban BitsetFacts CoordFacts Struct Push Inv Remove Capture Bridge GameFacts RulesFacts.
From Coq Require Import Lia.

(** ** Lists *)

Lemma foldM_collect {A B} (f : list B -> A -> res (list B)) (h : A -> list B) l : forall acc,
  (forall acc x, x ∈ l -> f acc x = Ok (acc ++ h x)) -> foldM f l acc = Ok (acc ++ flat_map h l).
Proof.
  induction l as [|a l IH]; intros acc H; cbn.
  - rewrite app_nil_r. reflexivity.
  - rewrite H by left. cbn [bind]. rewrite IH by (intros acc' x Hx; apply H; right; exact Hx).
    rewrite <- app_assoc. reflexivity.
Qed.

Lemma zip_seq {A} (l : list (option A)) :
  zip (seq 0 (length l)) l = List.map (fun i => (i, mjoin (l !! i))) (seq 0 (length l)).
Proof.
  apply list_eq. intros i. change (@List.map nat) with (@fmap list _ nat). 
  rewrite list_lookup_fmap, lookup_zip_with. destruct (seq 0 (length l) !! i) as [j|] eqn:E; [|reflexivity].
  apply lookup_seq in E as [-> Hi]. cbn. destruct (lookup_lt_is_Some_2 l i Hi) as [x ->]. reflexivity.
Qed.

Lemma flat_map_map {A B C} (f : A -> B) (h : B -> list C) l : flat_map h (List.map f l) = flat_map (fun x => h (f x)) l.
Proof. induction l as [|a l IH]; [reflexivity|]. cbn. rewrite IH. reflexivity. Qed.

Lemma flat_map_none {A B} (h : A -> list B) l : (forall x, x ∈ l -> h x = []) -> flat_map h l = [].
Proof.
  induction l as [|a l IH]; intros H; [reflexivity|]. cbn. rewrite H by left. apply IH. intros x Hx. apply H. right. exact Hx.
Qed.

Lemma flat_map_ext_in {A B} (h h' : A -> list B) l : (forall x, x ∈ l -> h x = h' x) -> flat_map h l = flat_map h' l.
Proof.
  induction l as [|a l IH]; intros H; [reflexivity|]. cbn. rewrite H by left. f_equal. apply IH. intros x Hx. apply H. right. exact Hx.
Qed.

Lemma flat_map_filter {A} (h : A -> bool) l : flat_map (fun x => if h x then [x] else []) l = List.filter h l.
Proof. induction l as [|a l IH]; [reflexivity|]. cbn. rewrite IH. destruct (h a); reflexivity. Qed.

Lemma map_flat_map {A B C} (f : B -> C) (h : A -> list B) l : List.map f (flat_map h l) = flat_map (fun x => List.map f (h x)) l.
Proof. induction l as [|a l IH]; [reflexivity|]. cbn. rewrite List.map_app, IH. reflexivity. Qed.

(** ** Row-major enumeration *)

Definition rm_lt (p q : coord) : Prop := (fst p < fst q \/ fst p = fst q /\ snd p < snd q)%nat.

Lemma points_seq n : points n = List.map (pt n) (seq 0 (n * n)).
Proof.
  unfold points. enough (H : forall m, list_prod (seq 0 m) (seq 0 n) = List.map (pt n) (seq 0 (m * n))) by apply H.
  induction m as [|m IH]; [reflexivity|].
  rewrite seq_S. cbn [Nat.add].
  assert (Happ : forall (a b : list nat) (c : list nat), list_prod (a ++ b) c = list_prod a c ++ list_prod b c).
  { intros a b c. induction a as [|x a IHa]; [reflexivity|]. cbn. rewrite IHa, app_assoc. reflexivity. }
  rewrite Happ, IH. replace (S m * n)%nat with (m * n + n)%nat by lia.
  rewrite seq_app, List.map_app. f_equal. cbn [list_prod]. rewrite app_nil_r. cbn [Nat.add].
  apply list_eq. intros i. change (@List.map nat) with (@fmap list _ nat). rewrite !list_lookup_fmap.
  destruct (Nat.lt_ge_cases i n) as [Hi|Hi].
  - rewrite !lookup_seq_lt by exact Hi. cbn [fmap option_fmap option_map]. unfold pt. cbn [Nat.add].
    destruct (divmod_idx n m i Hi) as [-> ->]. reflexivity.
  - rewrite !lookup_seq_ge by exact Hi. reflexivity.
Qed.

Lemma pt_rm_lt n i j : (1 <= n)%nat -> (i < j)%nat -> rm_lt (pt n i) (pt n j).
Proof.
  intros Hn H. unfold rm_lt, pt. cbn [fst snd].
  pose proof (Nat.div_mod i n ltac:(lia)). pose proof (Nat.div_mod j n ltac:(lia)).
  pose proof (Nat.mod_upper_bound i n ltac:(lia)). pose proof (Nat.mod_upper_bound j n ltac:(lia)).
  pose proof (Nat.div_le_mono i j n ltac:(lia) ltac:(lia)).
  destruct (Nat.eq_dec (i / n) (j / n)); [right; split; nia|left; nia].
Qed.

Lemma points_sorted n : StronglySorted rm_lt (points n).
Proof.
  destruct n as [|n]; [constructor|]. rewrite points_seq. set (m := S n).
  assert (H : forall len k, StronglySorted rm_lt (List.map (pt m) (seq k len))).
  { induction len as [|len IH]; intros k; [constructor|]. cbn. constructor; [apply IH|].
    apply Forall_forall. intros q Hq. apply elem_of_lmap in Hq as (j & -> & Hj). apply elem_of_seq in Hj.
    apply pt_rm_lt; lia. }
  apply H.
Qed.

Lemma sorted_lfilter {A} (R : A -> A -> Prop) (h : A -> bool) l : StronglySorted R l -> StronglySorted R (List.filter h l).
Proof.
  induction 1 as [|a l _ IH F]; [constructor|]. cbn. destruct (h a); [|exact IH]. constructor; [exact IH|].
  rewrite Forall_forall in *. intros x Hx. apply F. apply elem_of_lfilter in Hx. tauto.
Qed.

(** ** Neighbours *)

Definition nbrs (n : nat) (p : coord) : list coord :=
  let (r, c) := p in
  (if (S r <? n)%nat then [(S r, c)] else []) ++
  (if (0 <? r)%nat then [(r - 1, c)%nat] else []) ++
  (if (S c <? n)%nat then [(r, S c)] else []) ++
  (if (0 <? c)%nat then [(r, c - 1)%nat] else []).

Lemma elem_of_nbrs n p q : on n p -> q ∈ nbrs n p <-> on n q /\ adj p q.
Proof.
  destruct p as [r c], q as [a b]. unfold on, adj, nbrs. cbn [fst snd]. intros [Hr Hc].
  rewrite !elem_of_app.
  assert (E : forall (t : bool) (x : coord), (a, b) ∈ (if t then [x] else []) <-> t = true /\ (a, b) = x).
  { intros [] x; [rewrite elem_of_list_singleton|rewrite elem_of_nil]; intuition congruence. }
  rewrite !E, !Nat.ltb_lt. split.
  - intros [[H [= -> ->]]|[[H [= -> ->]]|[[H [= -> ->]]|[H [= -> ->]]]]]; lia.
  - intros [Hab [[-> [->| ->]]|[-> [->| ->]]]].
    + right. right. right. split; [lia|]. f_equal. lia.
    + right. right. left. split; [lia|reflexivity].
    + right. left. split; [lia|]. f_equal. lia.
    + left. split; [lia|reflexivity].
Qed.

Lemma NoDup_nbrs n p : NoDup (nbrs n p).
Proof.
  destruct p as [r c]. unfold nbrs.
  destruct (S r <? n)%nat; destruct (Nat.ltb_spec 0 r); destruct (S c <? n)%nat; destruct (Nat.ltb_spec 0 c); cbn [app];
    repeat (apply NoDup_cons; split; [rewrite ?elem_of_cons, ?elem_of_nil; intros Hx;
      repeat (destruct Hx as [Hx|Hx]); try (injection Hx; lia); assumption|]); apply NoDup_nil_2.
Qed.

Lemma nbrs_length n p : (length (nbrs n p) <= 4)%nat.
Proof.
  destruct p as [r c]. unfold nbrs.
  destruct (S r <? n)%nat; destruct (0 <? r)%nat; destruct (S c <? n)%nat; destruct (0 <? c)%nat; cbn; lia.
Qed.

Lemma valid_coords_ok dbg n p : (1 <= n <= 19)%nat -> on n p -> valid_coords dbg p (n, n) = Ok (nbrs n p).
Proof. destruct p as [r c]. intros Hn [Hr Hc]. apply valid_coords_eq; assumption. Qed.

Lemma neighbors_ok dbg n g p : wf n g -> on n p -> neighbors_coords dbg g p = Ok (nbrs n p).
Proof. intros W Hp. unfold neighbors_coords. rewrite (wf_size n g W). apply valid_coords_ok; [apply (wf_n n g W)|exact Hp]. Qed.

Lemma get_color_pos n g p : wf n g -> on n p -> get_color g p = Ok (pos_of g p).
Proof. intros W Hp. rewrite (pos_of_col n g p W Hp). apply get_color_ok; assumption. Qed.

Lemma connected_points_ok dbg n g p : wf n g -> on n p ->
  get_connected_points dbg g p = Ok (List.map (fun q => (q, pos_of g q)) (nbrs n p)).
Proof.
  intros W Hp. unfold get_connected_points. rewrite (neighbors_ok dbg n g p W Hp). cbn [bind].
  apply mapM_ok. intros q Hq. apply (elem_of_nbrs n p q Hp) in Hq as [Hq _]. rewrite (get_color_pos n g q W Hq). reflexivity.
Qed.

Lemma has_liberties_ok dbg n g p : wf n g -> on n p ->
  exists v, has_liberties dbg g p = Ok v /\ (v = true <-> exists q, on n q /\ adj p q /\ pos_of g q = None).
Proof.
  intros W Hp. unfold has_liberties. rewrite (neighbors_ok dbg n g p W Hp). cbn [bind].
  rewrite (anyM_ok _ (fun q => mcolor_eqb (pos_of g q) None)).
  - eexists. split; [reflexivity|]. rewrite existsb_spec. split.
    + intros (q & Hq & E). apply (elem_of_nbrs n p q Hp) in Hq as [Hq Ha]. exists q.
      destruct (mcolor_eqb_spec (pos_of g q) None); [tauto|discriminate].
    + intros (q & Hq & Ha & E). exists q. split; [apply (elem_of_nbrs n p q Hp); tauto|]. rewrite E. reflexivity.
  - intros q Hq. apply (elem_of_nbrs n p q Hp) in Hq as [Hq _]. rewrite (get_color_pos n g q W Hq). reflexivity.
Qed.

(** ** Groups *)

(** [grp] is the group of the stone on [q] *)
Definition group_at (n : nat) (g : goban) (q : coord) (grp : group) : Prop :=
  exists k, cell g (idx n q) = Some k /\ live g k = Some grp.

Lemma connected_groups_ok dbg n g p : wf n g -> on n p ->
  exists l, get_connected_groups dbg g p = Ok l /\
    forall grp, grp ∈ l <-> exists q, on n q /\ adj p q /\ group_at n g q grp.
Proof.
  intros W Hp. unfold get_connected_groups. rewrite (wf_size n g W), two_idx'.
  destruct (connected_spec dbg n g (idx n p) (wf_n n g W) (wf_size n g W) (wf0_board g (wf_0 n g W)) (idx_on n p Hp)) as (l & -> & _ & Hl).
  cbn [bind].
  assert (Hlive : forall k, k ∈ l -> exists grp, live g k = Some grp).
  { intros k Hk. apply Hl in Hk as (j & _ & Hk). destruct (wf0_cell g (wf_0 n g W) j k Hk) as [grp H]. eauto. }
  assert (HH : exists gs, mapM (chain_at (chains g)) l = Ok gs /\ forall grp, grp ∈ gs <-> exists k, k ∈ l /\ live g k = Some grp).
  { clear Hl. induction l as [|k l IH].
    - exists []. split; [reflexivity|]. intros grp. split; [intros H; apply elem_of_nil in H; destruct H|].
      intros (k & H & _). apply elem_of_nil in H. destruct H.
    - destruct (Hlive k) as [gk Hk]; [left|]. destruct IH as (gs & E & IH).
      + intros k' Hk'. apply Hlive. right. exact Hk'.
      + exists (gk :: gs). cbn [mapM]. rewrite (chain_at_live _ _ _ Hk), E. split; [reflexivity|]. intros grp.
        rewrite elem_of_cons, IH. split.
        * intros [->|(k' & H1 & H2)]; [exists k; split; [left|exact Hk]|exists k'; split; [right; exact H1|exact H2]].
        * intros (k' & H1 & H2). apply elem_of_cons in H1 as [->|H1]; [left; congruence|right; eauto]. }
  destruct HH as (gs & -> & Hgs). exists gs. split; [reflexivity|]. intros grp. rewrite Hgs. split.
  - intros (k & Hk & Hg). apply Hl in Hk as (j & Hj & Hk). pose proof (wf_on n g W j k Hk) as Hjn.
    exists (pt n j). split; [apply pt_on, Hjn|]. split.
    + apply (adj_nb n); [exact Hp|apply pt_on, Hjn|]. rewrite idx_pt by exact Hjn. exact Hj.
    + exists k. rewrite idx_pt by exact Hjn. tauto.
  - intros (q & Hq & Ha & k & H1 & H2). exists k. split; [|exact H2]. apply Hl. exists (idx n q).
    split; [apply adj_nb; assumption|exact H1].
Qed.

Lemma group_at_ex n g q : wf n g -> on n q -> pos_of g q <> None -> exists grp, group_at n g q grp.
Proof. intros W Hq H. destruct (stone_group n g q W Hq H) as (k & grp & H1 & H2 & _). exists grp, k. tauto. Qed.

Lemma group_at_color n g q grp : wf n g -> on n q -> group_at n g q grp -> pos_of g q = Some (g_color grp).
Proof.
  intros W Hq (k & H1 & H2). rewrite (pos_of_col n g q W Hq). unfold col. rewrite H1, H2. reflexivity.
Qed.

Lemma group_at_stone n g q grp : wf n g -> on n q -> group_at n g q grp -> pos_of g q <> None.
Proof. intros W Hq H. rewrite (group_at_color n g q grp W Hq H). discriminate. Qed.

Lemma group_bits n g q grp : wf n g -> group_at n g q grp -> bits_ok (g_liberties grp).
Proof. intros W (k & _ & H). apply (wf0_chain g (wf_0 n g W) k grp H). Qed.

Lemma group_at_atari n g q grp : wf n g -> on n q -> group_at n g q grp ->
  is_atari grp = true <-> exists l, forall l', liberty n (pos_of g) q l' <-> l' = l.
Proof.
  intros W Hq HG. rewrite (is_atari_spec grp (group_bits n g q grp W HG)). destruct HG as (k & H1 & H2). split.
  - intros (j & Hj). pose proof (lbit_on n g k grp j W H2 (proj2 (Hj j) eq_refl)) as Hjn.
    exists (pt n j). intros l'. rewrite (liberty_lbit n g q k grp l' W Hq H1 H2), Hj. split.
    + intros [Hl <-]. symmetry. apply pt_idx, Hl.
    + intros ->. split; [apply pt_on, Hjn|apply idx_pt, Hjn].
  - intros (l & Hl). exists (idx n l). intros i. split.
    + intros Hi. pose proof (lbit_on n g k grp i W H2 Hi) as Hin. rewrite <- (idx_pt n i Hin). f_equal. apply Hl.
      apply (liberty_lbit n g q k grp _ W Hq H1 H2). rewrite idx_pt by exact Hin. split; [apply pt_on, Hin|exact Hi].
    + intros ->. apply (liberty_lbit n g q k grp l W Hq H1 H2). apply Hl. reflexivity.
Qed.

Lemma group_at_dead n g q grp : wf n g -> on n q -> group_at n g q grp ->
  is_dead grp = true <-> ~ breathes n (pos_of g) q.
Proof. intros W Hq (k & H1 & H2). symmetry. eapply breathes_dead; eassumption. Qed.

Lemma group_liberties_ok n g q grp : wf n g -> on n q -> group_at n g q grp ->
  exists l, group_liberties grp = Ok l /\ StronglySorted lt l /\ number_of_liberties grp = length l /\
    forall i, i ∈ l <-> exists p, i = idx n p /\ liberty n (pos_of g) q p.
Proof.
  intros W Hq HG. pose proof (group_bits n g q grp W HG) as Hb. destruct HG as (k & H1 & H2).
  exists (lib_list (g_liberties grp)). unfold group_liberties. rewrite lib_iter_ones_spec by exact Hb.
  split; [reflexivity|]. split.
  { unfold lib_list. apply sorted_lfilter. generalize 0%nat, 368%nat. intros a len. revert a.
    induction len as [|len IH]; intros a; [constructor|]. cbn. constructor; [apply IH|]. apply Forall_forall.
    intros x Hx. apply elem_of_seq in Hx. lia. }
  split; [apply lib_count_ones_spec, Hb|].
  intros i. rewrite elem_of_lib_list by exact Hb. split.
  - intros Hi. pose proof (lbit_on n g k grp i W H2 Hi) as Hin. exists (pt n i). rewrite idx_pt by exact Hin.
    split; [reflexivity|]. apply (liberty_lbit n g q k grp _ W Hq H1 H2). rewrite idx_pt by exact Hin. split; [apply pt_on, Hin|exact Hi].
  - intros (p & -> & Hp). apply (liberty_lbit n g q k grp p W Hq H1 H2) in Hp. tauto.
Qed.

Lemma contains_liberty_ok n g q grp p : wf n g -> on n q -> on n p -> group_at n g q grp ->
  exists v, contains_liberty grp (idx n p) = Ok v /\ (v = true <-> liberty n (pos_of g) q p).
Proof.
  intros W Hq Hp HG. pose proof (group_bits n g q grp W HG) as Hb. destruct HG as (k & H1 & H2).
  unfold contains_liberty. pose proof (sq_le n (wf_n n g W)). pose proof (idx_on n p Hp).
  rewrite lib_get_spec by (try exact Hb; lia). eexists. split; [reflexivity|].
  rewrite (liberty_lbit n g q k grp p W Hq H1 H2). tauto.
Qed.

(** the stones of a group *)
Lemma chain_stones_ok dbg n g q k grp : wf n g -> on n q -> cell g (idx n q) = Some k -> live g k = Some grp ->
  exists l, group_iter dbg grp (next_stone g) = Ok l /\
    chain_stones dbg g k = Ok (List.map (fun i => (pt n i, g_color grp)) l) /\
    NoDup l /\ length l = g_num_stones grp /\ head l = Some (g_origin grp) /\ last l = Some (g_last grp) /\
    (forall i, i ∈ l <-> exists p, i = idx n p /\ on n p /\ connected n (pos_of g) q p).
Proof.
  intros W Hq H1 H2. destruct (wf0_chain g (wf_0 n g W) k grp H2) as [_ (l & R & Hm)].
  pose proof (wf0_iter dbg g k grp l) as Hit. specialize (Hit (wf_0 n g W) R Hm).
  exists l. split; [exact Hit|].
  assert (Hn : forall i, i ∈ l -> (i < n * n)%nat) by (intros i Hi; apply Hm in Hi; apply (wf_on n g W i k Hi)).
  split.
  { unfold chain_stones. rewrite (chain_at_live _ _ _ H2). cbn [bind]. rewrite Hit. cbn [bind].
    apply mapM_ok. intros i Hi. rewrite (wf_size n g W).
    rewrite one_to_2dim_sq; [reflexivity|pose proof (wf_n n g W); lia|pose proof (Hn i Hi); lia]. }
  split; [apply (ring_nodup _ _ _ R)|]. split; [apply (ring_num _ _ _ R)|].
  split; [apply (ring_head _ _ _ R)|]. split; [apply (ring_last _ _ _ R)|].
  intros i. rewrite Hm. split.
  - intros Hi. pose proof (wf_on n g W i k Hi) as Hin. exists (pt n i). rewrite idx_pt by exact Hin.
    split; [reflexivity|]. split; [apply pt_on, Hin|]. apply (connected_cell n g q _ k W Hq H1). rewrite idx_pt by exact Hin.
    split; [apply pt_on, Hin|exact Hi].
  - intros (p & -> & Hp & Hc). apply (connected_cell n g q p k W Hq H1) in Hc. tauto.
Qed.

(** a single stone *)
Lemma group_at_single n g q grp : wf n g -> on n q -> group_at n g q grp ->
  g_num_stones grp = 1%nat <-> forall t, connected n (pos_of g) q t -> t = q.
Proof.
  intros W Hq (k & H1 & H2). destruct (chain_stones_ok true n g q k grp W Hq H1 H2) as (l & _ & _ & Nd & Hl & _ & _ & Hm).
  assert (Hq' : idx n q ∈ l) by (apply Hm; exists q; repeat split; try apply Hq; apply rtc_refl).
  rewrite <- Hl. split.
  - intros E t Ht. destruct l as [|a [|b l]]; try discriminate.
    assert (Ho : on n t) by (exact (connected_on n _ q t Hq Ht)).
    assert (Ht' : idx n t ∈ [a]) by (apply Hm; exists t; tauto).
    apply elem_of_list_singleton in Ht', Hq'. apply (idx_inj n); try assumption. congruence.
  - intros H. destruct l as [|a [|b l]]; [apply elem_of_nil in Hq'; destruct Hq'|reflexivity|]. exfalso.
    assert (Hall : forall i, i ∈ a :: b :: l -> i = idx n q).
    { intros i Hi. apply Hm in Hi as (p & -> & Hp & Hc). rewrite (H p Hc). reflexivity. }
    apply NoDup_cons in Nd as [Hx _]. apply Hx. rewrite (Hall a), (Hall b); [left|right; left|left].
Qed.

Lemma group_num_pos n g q grp : wf n g -> on n q -> group_at n g q grp -> (1 <= g_num_stones grp)%nat.
Proof.
  intros W Hq (k & H1 & H2). destruct (chain_stones_ok true n g q k grp W Hq H1 H2) as (l & _ & _ & Nd & Hl & _ & _ & Hm).
  assert (Hq' : idx n q ∈ l) by (apply Hm; exists q; repeat split; try apply Hq; apply rtc_refl).
  rewrite <- Hl. destruct l; [apply elem_of_nil in Hq'; destruct Hq'|cbn; lia].
Qed.

(** ** Enumerations *)

Lemma zip_board n g : wf n g ->
  zip (seq 0 (length (board g))) (board g) = List.map (fun i => (i, cell g i)) (seq 0 361).
Proof. intros W. rewrite zip_seq. rewrite (wf0_board g (wf_0 n g W)). reflexivity. Qed.

Definition is_none {A} (o : option A) : bool := match o with None => true | Some _ => false end.

Lemma get_empty_coords_ok n g : wf n g ->
  get_empty_coords g = Ok (List.filter (fun p => is_none (pos_of g p)) (points n)).
Proof.
  intros W. unfold get_empty_coords. rewrite (wf_size n g W). cbn [fst snd].
  pose proof (sq_le n (wf_n n g W)) as Hle. pose proof (wf0_board g (wf_0 n g W)) as Hb.
  replace (n * n <=? length (board g))%nat with true by (symmetry; apply Nat.leb_le; lia). cbn [assert_ bind].
  assert (Hz : zip (seq 0 (n * n)) (take (n * n) (board g)) = List.map (fun i => (i, cell g i)) (seq 0 (n * n))).
  { assert (Hlen : length (take (n * n) (board g)) = (n * n)%nat) by (rewrite take_length; lia).
    pose proof (zip_seq (take (n * n) (board g))) as E. rewrite Hlen in E. rewrite E.
    apply List.map_ext_in. intros i Hi. apply in_seq in Hi. rewrite lookup_take by lia. reflexivity. }
  rewrite Hz, (foldM_collect _ (fun x => match snd x with Some _ => [] | None => [pt n (fst x)] end)).
  - cbn [app]. f_equal. rewrite flat_map_map. cbn [fst snd]. rewrite points_seq.
    rewrite <- (flat_map_filter _ (List.map (pt n) (seq 0 (n * n)))), flat_map_map.
    apply flat_map_ext_in. intros i Hi. apply elem_of_seq in Hi.
    rewrite (pos_of_col n g) by (try apply pt_on; try assumption; lia). rewrite idx_pt by lia.
    destruct (cell g i) as [k|] eqn:E.
    + destruct (col_cell n g i k W E) as (grp & _ & ->). reflexivity.
    + apply (col_None n g i W) in E. rewrite E. reflexivity.
  - intros acc [i c] Hx. apply elem_of_lmap in Hx as (j & E & Hj). injection E as -> ->. apply elem_of_seq in Hj. cbn [fst snd].
    destruct (cell g j); [rewrite app_nil_r; reflexivity|].
    rewrite one_to_2dim_sq; [reflexivity|pose proof (wf_n n g W); lia..].
Qed.

Lemma get_stones_ok n g : wf n g -> get_stones g = Ok (stones_in n (pos_of g)).
Proof.
  intros W. unfold get_stones. rewrite (zip_board n g W).
  pose proof (sq_le n (wf_n n g W)) as Hle.
  rewrite (foldM_collect _ (fun x => match col g (fst x) with Some c => [(pt n (fst x), c)] | None => [] end)).
  - cbn [app]. f_equal. rewrite flat_map_map. cbn [fst snd].
    replace 361%nat with (n * n + (361 - n * n))%nat by lia. rewrite seq_app, flat_map_app.
    rewrite (flat_map_none _ (seq (0 + n * n) (361 - n * n))).
    2:{ intros i Hi. apply elem_of_seq in Hi. rewrite (col_off n g i W) by lia. reflexivity. }
    rewrite app_nil_r. unfold stones_in. rewrite points_seq.
    rewrite <- flat_map_filter, flat_map_map, map_flat_map.
    apply flat_map_ext_in. intros i Hi. apply elem_of_seq in Hi.
    assert (E : pos_of g (pt n i) = col g i) by (rewrite (pos_of_col n g), idx_pt by (try apply pt_on; try assumption; lia); reflexivity).
    rewrite E. destruct (col g i) as [c|] eqn:Ec; [|reflexivity]. cbn. rewrite E. reflexivity.
  - intros acc [i c] Hx. apply elem_of_lmap in Hx as (j & E & Hj). injection E as -> ->. apply elem_of_seq in Hj. cbn [fst snd].
    destruct (cell g j) as [k|] eqn:Ek; [|rewrite (proj2 (col_None n g j W) Ek), app_nil_r; reflexivity].
    destruct (col_cell n g j k W Ek) as (grp & Hk & ->). rewrite (wf_size n g W).
    pose proof (wf_on n g W j k Ek).
    rewrite one_to_2dim_sq; [|pose proof (wf_n n g W); lia..]. cbn [bind]. rewrite (chain_at_live _ _ _ Hk). reflexivity.
Qed.

Lemma sorted_stones n P : StronglySorted rm_lt (stones_in n P).*1.
Proof. rewrite stones_in_fst. apply sorted_lfilter, points_sorted. Qed.

Lemma by_color_ok dbg n g mc : wf n g ->
  (dbg = true /\ (256 <= n * n)%nat /\ get_coords_by_color dbg g mc = Panic) \/
  ((dbg = false \/ (n * n < 256)%nat) /\
   get_coords_by_color dbg g mc =
     Ok (List.filter (fun p => is_none mc || mcolor_eqb (pos_of g p) mc) (take ((n * n) mod 256) (points n)))).
Proof.
  intros W. unfold get_coords_by_color. rewrite (wf_size n g W). cbn [fst snd]. unfold u8_mul.
  pose proof (sq_le n (wf_n n g W)) as Hle.
  assert (HM : forall len, (len <= n * n)%nat ->
    foldM (fun (acc : list coord) (i : nat) =>
           match mc with
           | None => let! p := one_to_2dim (n, n) i in av_push BOARD_MAX_LENGTH acc p
           | Some c =>
               let! cell := vget (board g) i in
               match cell with
               | None => Ok acc
               | Some k =>
                   let! grp := chain_at (chains g) k in
                   if color_eqb (g_color grp) c then
                     let! p := one_to_2dim (n, n) i in av_push BOARD_MAX_LENGTH acc p
                   else Ok acc
               end
           end) (seq 0 len) [] =
    Ok (List.filter (fun p => is_none mc || mcolor_eqb (pos_of g p) mc) (take len (points n)))).
  { induction len as [|len IH]; intros Hlen.
    - cbn. rewrite take_0. reflexivity.
    - rewrite seq_S, foldM_app, IH by lia. cbn [Nat.add bind foldM].
      assert (Hlk : points n !! len = Some (pt n len)).
      { rewrite points_seq. change (@List.map nat) with (@fmap list _ nat). rewrite list_lookup_fmap, lookup_seq_lt by lia. reflexivity. }
      rewrite (take_S_r _ _ _ Hlk), List.filter_app. cbn [List.filter].
      rewrite (pos_of_col n g) by (try apply pt_on; try assumption; lia). rewrite idx_pt by lia.
      rewrite one_to_2dim_sq by (pose proof (wf_n n g W); lia). cbn [bind].
      assert (Hcap : (length (List.filter (fun p => is_none mc || mcolor_eqb (pos_of g p) mc) (take len (points n))) < BOARD_MAX_LENGTH)%nat).
      { eapply Nat.le_lt_trans; [apply lfilter_length|]. rewrite take_length, points_length. unfold BOARD_MAX_LENGTH. lia. }
      destruct mc as [c|]; cbn [is_none orb].
      + rewrite vget_board by (rewrite (wf0_board g (wf_0 n g W)); lia). cbn [bind].
        destruct (cell g len) as [k|] eqn:E.
        * destruct (col_cell n g len k W E) as (grp & Hk & ->). rewrite (chain_at_live _ _ _ Hk). cbn [bind mcolor_eqb].
          destruct (color_eqb (g_color grp) c); [rewrite av_push_ok by exact Hcap; reflexivity|rewrite app_nil_r; reflexivity].
        * rewrite (proj2 (col_None n g len W) E). cbn. rewrite app_nil_r. reflexivity.
      + rewrite av_push_ok by exact Hcap. reflexivity. }
  destruct (Nat.ltb_spec (n * n) 256) as [Hs|Hs].
  - right. split; [tauto|]. cbn [bind]. rewrite HM by lia. rewrite Nat.mod_small by lia. reflexivity.
  - destruct dbg; [left; split; [reflexivity|split; [exact Hs|reflexivity]]|right]. split; [tauto|]. cbn [bind].
    apply HM. apply Nat.mod_le. lia.
Qed.

(** ** Counting *)

Lemma count_len n P c : count n P c = length (List.filter (fun p => mcolor_eqb (P p) (Some c)) (points n)).
Proof.
  unfold count. f_equal. induction (points n) as [|a l IH]; [reflexivity|]. rewrite filter_cons. cbn [List.filter].
  destruct (mcolor_eqb_spec (P a) (Some c)); destruct (decide (P a = Some c)); try contradiction; rewrite IH; reflexivity.
Qed.

Lemma filter_split {A} (f f1 f2 : A -> bool) l :
  (forall x, x ∈ l -> f x = f1 x || f2 x) -> (forall x, x ∈ l -> f1 x && f2 x = false) ->
  length (List.filter f l) = (length (List.filter f1 l) + length (List.filter f2 l))%nat.
Proof.
  induction l as [|a l IH]; intros H1 H2; [reflexivity|]. cbn.
  specialize (IH (fun x Hx => H1 x (elem_of_list_further _ _ _ Hx)) (fun x Hx => H2 x (elem_of_list_further _ _ _ Hx))).
  pose proof (H1 a (elem_of_list_here _ _)) as E1. pose proof (H2 a (elem_of_list_here _ _)) as E2.
  rewrite E1. destruct (f1 a), (f2 a); cbn in *; try discriminate; lia.
Qed.

Lemma filter_none {A} (f : A -> bool) l : (forall x, f x = false) -> List.filter f l = [].
Proof. intros H. induction l as [|a l IH]; [reflexivity|]. cbn. rewrite H. exact IH. Qed.

Definition gcol (g : goban) (k : nat) : option color := match live g k with Some grp => Some (g_color grp) | None => None end.

Lemma group_size n g k grp : wf n g -> live g k = Some grp ->
  g_num_stones grp = length (List.filter (fun i => match cell g i with Some k' => (k' =? k)%nat | None => false end) (seq 0 (n * n))).
Proof.
  intros W Hk. destruct (wf0_chain g (wf_0 n g W) k grp Hk) as [_ (l & R & Hm)].
  rewrite <- (ring_num _ _ _ R). apply Permutation_length, NoDup_Permutation.
  - apply (ring_nodup _ _ _ R).
  - apply NoDup_lfilter, NoDup_ListNoDup, seq_NoDup.
  - intros i. rewrite Hm, elem_of_lfilter, elem_of_seq. split.
    + intros Hi. pose proof (wf_on n g W i k Hi). rewrite Hi, Nat.eqb_refl. split; [lia|reflexivity].
    + intros [_ H]. destruct (cell g i) as [k'|]; [|discriminate]. apply Nat.eqb_eq in H. congruence.
Qed.

Lemma number_of_stones_ok n g : wf n g ->
  number_of_stones g = (count n (pos_of g) Black, count n (pos_of g) White).
Proof.
  intros W.
  set (cnt := fun m c => length (List.filter (fun i => match cell g i with
                 | Some k => (k <? m)%nat && mcolor_eqb (gcol g k) (Some c) | None => false end) (seq 0 (n * n)))).
  assert (HC : forall c, count n (pos_of g) c = cnt (length (chains g)) c).
  { intros c. rewrite count_len, points_seq. unfold cnt.
    assert (Hg : forall l, (forall i, i ∈ l -> (i < n * n)%nat) ->
      length (List.filter (fun p => mcolor_eqb (pos_of g p) (Some c)) (List.map (pt n) l)) =
      length (List.filter (fun i => match cell g i with
                 | Some k => (k <? length (chains g))%nat && mcolor_eqb (gcol g k) (Some c) | None => false end) l)).
    { induction l as [|i l IH]; intros Hl; [reflexivity|]. cbn [List.map List.filter].
      pose proof (Hl i (elem_of_list_here _ _)) as Hi.
      rewrite (pos_of_col n g) by (try apply pt_on; try assumption; lia). rewrite idx_pt by lia.
      specialize (IH (fun i Hi => Hl i (elem_of_list_further _ _ _ Hi))).
      destruct (cell g i) as [k|] eqn:E.
      - destruct (col_cell n g i k W E) as (grp & Hk & ->). unfold gcol. rewrite Hk.
        pose proof (live_lt g k grp Hk). replace (k <? length (chains g))%nat with true by (symmetry; apply Nat.ltb_lt; lia).
        cbn [andb]. destruct (mcolor_eqb _ _); cbn; rewrite IH; reflexivity.
      - rewrite (proj2 (col_None n g i W) E). cbn. exact IH. }
    apply Hg. intros i Hi. apply elem_of_seq in Hi. lia. }
  assert (HS : forall m, (m <= length (chains g))%nat ->
    fold_left (fun '(b, w) grp => match g_color grp with
               | White => (b, w + g_num_stones grp)%nat
               | Black => (b + g_num_stones grp, w)%nat end) (omap id (take m (chains g))) (0, 0)%nat = (cnt m Black, cnt m White)).
  { induction m as [|m IH]; intros Hm.
    - rewrite take_0. cbn [omap list_omap fold_left]. unfold cnt.
      assert (E : forall c, List.filter (fun i => match cell g i with
                 | Some k => (k <? 0)%nat && mcolor_eqb (gcol g k) (Some c) | None => false end) (seq 0 (n * n)) = []).
      { intros c. apply filter_none. intros i. destruct (cell g i); reflexivity. }
      rewrite !E. reflexivity.
    - destruct (lookup_lt_is_Some_2 (chains g) m ltac:(lia)) as [o Ho].
      rewrite (take_S_r _ _ _ Ho), omap_app, fold_left_app, IH by lia.
      assert (Hstep : forall c, cnt (S m) c = (cnt m c + (match o with Some grp => if color_eqb (g_color grp) c then g_num_stones grp else 0 | None => 0 end))%nat).
      { intros c. unfold cnt.
        rewrite (filter_split _ (fun i => match cell g i with
                 | Some k => (k <? m)%nat && mcolor_eqb (gcol g k) (Some c) | None => false end)
               (fun i => match cell g i with Some k => (k =? m)%nat && mcolor_eqb (gcol g k) (Some c) | None => false end)).
        - f_equal. assert (Hlv : live g m = o) by (unfold live; rewrite Ho; reflexivity).
          destruct o as [grp|].
          + rewrite (group_size n g m grp W Hlv). destruct (color_eqb (g_color grp) c) eqn:Ec.
            * f_equal. apply List.filter_ext. intros i. destruct (cell g i) as [k|]; [|reflexivity].
              destruct (Nat.eqb_spec k m) as [->|]; [|reflexivity]. unfold gcol. rewrite Hlv. cbn. exact Ec.
            * rewrite filter_none; [reflexivity|]. intros i. destruct (cell g i) as [k|]; [|reflexivity].
              destruct (Nat.eqb_spec k m) as [->|]; [|reflexivity]. unfold gcol. rewrite Hlv. cbn. exact Ec.
          + rewrite filter_none; [reflexivity|]. intros i. destruct (cell g i) as [k|]; [|reflexivity].
            destruct (Nat.eqb_spec k m) as [->|]; [|reflexivity]. unfold gcol. rewrite Hlv. reflexivity.
        - intros i _. destruct (cell g i) as [k|]; [|reflexivity].
          destruct (Nat.ltb_spec k (S m)), (Nat.ltb_spec k m), (Nat.eqb_spec k m); try lia; cbn; rewrite ?orb_false_r; reflexivity.
        - intros i _. destruct (cell g i) as [k|]; [|reflexivity].
          destruct (Nat.ltb_spec k m), (Nat.eqb_spec k m); try lia; cbn; rewrite ?andb_false_r; reflexivity. }
      rewrite !Hstep. destruct o as [grp|]; cbn [omap list_omap id fold_left].
      + destruct (g_color grp); cbn; f_equal; lia.
      + f_equal; lia. }
  unfold number_of_stones, all_chains, chains_iter.
  pose proof (HS (length (chains g)) ltac:(lia)) as E. rewrite firstn_all in E.
  etransitivity; [exact E|]. rewrite !HC. reflexivity.
Qed.

Lemma group_component n g q grp : wf n g -> on n q -> group_at n g q grp ->
  exists l, NoDup l /\ length l = g_num_stones grp /\ forall p, p ∈ l <-> on n p /\ connected n (pos_of g) q p.
Proof.
  intros W Hq (k & H1 & H2). destruct (chain_stones_ok true n g q k grp W Hq H1 H2) as (l & _ & _ & Nd & Hl & _ & _ & Hm).
  exists (pt n <$> l). split.
  - apply NoDup_fmap_in; [|exact Nd]. intros a b Ha Hb E. apply Hm in Ha as (p & -> & Hp & _), Hb as (p' & -> & Hp' & _).
    rewrite !pt_idx in E by assumption. congruence.
  - split; [rewrite fmap_length; exact Hl|]. intros p. rewrite elem_of_list_fmap. split.
    + intros (i & -> & Hi). apply Hm in Hi as (p' & -> & Hp' & Hc). rewrite pt_idx by exact Hp'. tauto.
    + intros [Hp Hc]. exists (idx n p). rewrite pt_idx by exact Hp. split; [reflexivity|]. apply Hm. exists p. tauto.
Qed.

(** ** Conversions *)

Lemma cell_color_ok n g i : wf n g -> cell_color g (cell g i) = Ok (col g i).
Proof.
  intros W. unfold cell_color. destruct (cell g i) as [k|] eqn:E.
  - destruct (col_cell n g i k W E) as (grp & Hk & ->). rewrite (chain_at_live _ _ _ Hk). reflexivity.
  - rewrite (proj2 (col_None n g i W) E). reflexivity.
Qed.

Lemma board_cells n g : wf n g -> board g = List.map (cell g) (seq 0 361).
Proof.
  intros W. pose proof (wf0_board g (wf_0 n g W)) as Hb. apply list_eq. intros i.
  change (@List.map nat) with (@fmap list _ nat). rewrite list_lookup_fmap.
  destruct (Nat.lt_ge_cases i 361) as [Hi|Hi].
  - rewrite lookup_seq_lt by exact Hi. cbn. destruct (lookup_lt_is_Some_2 (board g) i ltac:(lia)) as [x Hx]. unfold cell. rewrite Hx. reflexivity.
  - rewrite lookup_seq_ge by exact Hi. apply lookup_ge_None_2. lia.
Qed.

Lemma col_seq n g : wf n g -> List.map (col g) (seq 0 361) = List.map (pos_of g) (points n) ++ replicate (361 - n * n) None.
Proof.
  intros W. pose proof (sq_le n (wf_n n g W)) as Hle.
  replace (seq 0 361) with (seq 0 (n * n) ++ seq (n * n) (361 - n * n)).
  2:{ replace 361%nat with (n * n + (361 - n * n))%nat at 2 by lia. rewrite seq_app. reflexivity. }
  rewrite List.map_app. f_equal.
  - rewrite points_seq, List.map_map. apply List.map_ext_in. intros i Hi. apply in_seq in Hi.
    rewrite (pos_of_col n g), idx_pt by (try apply pt_on; try assumption; lia). reflexivity.
  - set (m := (361 - n * n)%nat). assert (H : forall k, (n * n <= k)%nat -> List.map (col g) (seq k m) = replicate m None).
    { induction m as [|m IH]; intros k Hk; [reflexivity|]. cbn. rewrite (col_off n g k W Hk), IH by lia. reflexivity. }
    apply H. lia.
Qed.

Lemma to_vec_ok n g : wf n g ->
  to_vec g = Ok (List.map (pos_of g) (points n) ++ replicate (361 - n * n) None).
Proof.
  intros W. unfold to_vec. rewrite <- (col_seq n g W), (board_cells n g W).
  assert (H : forall l, mapM (cell_color g) (List.map (cell g) l) = Ok (List.map (col g) l)).
  { induction l as [|i l IH]; [reflexivity|]. cbn [List.map mapM]. rewrite (cell_color_ok n g i W), IH. reflexivity. }
  apply H.
Qed.

Lemma matrix_ok n g : wf n g ->
  matrix g = Ok (List.map (fun r => List.map (fun j => col g (r * n + j)%nat) (seq 0 n)) (seq 0 (361 / n))).
Proof.
  intros W. unfold matrix. rewrite (wf_size n g W). cbn [snd]. pose proof (wf_n n g W) as Hn.
  replace (n =? 0)%nat with false by (symmetry; apply Nat.eqb_neq; lia). cbn [negb assert_ bind].
  rewrite (wf0_board g (wf_0 n g W)). apply mapM_ok. intros r Hr. apply elem_of_seq in Hr.
  assert (Hrn : (r * n + n <= 361)%nat).
  { pose proof (Nat.mul_div_le 361 n ltac:(lia)). nia. }
  rewrite (board_cells n g W).
  assert (E : take n (drop (r * n) (List.map (cell g) (seq 0 361))) = List.map (cell g) (List.map (fun j => r * n + j)%nat (seq 0 n))).
  { apply list_eq. intros i. change (@List.map nat) with (@fmap list _ nat). rewrite !list_lookup_fmap.
    destruct (Nat.lt_ge_cases i n) as [Hi|Hi].
    - rewrite lookup_take, lookup_drop, list_lookup_fmap by exact Hi. rewrite !lookup_seq_lt by lia. reflexivity.
    - rewrite lookup_take_ge by exact Hi. rewrite (lookup_seq_ge _ n) by exact Hi. reflexivity. }
  rewrite E. assert (H : forall l, mapM (cell_color g) (List.map (cell g) l) = Ok (List.map (col g) l)).
  { induction l as [|i l IH]; [reflexivity|]. cbn [List.map mapM]. rewrite (cell_color_ok n g i W), IH. reflexivity. }
  rewrite H. f_equal. rewrite List.map_map. reflexivity.
Qed.

Definition glyph_at (n : nat) (P : pos) (i j : nat) : glyph :=
  match P (i, j) with Some Black => BlackDisc | Some White => WhiteDisc | None => empty_glyph n n i j end.

Lemma pretty_ok n g : wf n g ->
  pretty_string g = Ok (List.concat (List.map (fun i => List.map (glyph_at n (pos_of g) i) (seq 0 n) ++ [NewLine]) (seq 0 n))).
Proof.
  intros W. unfold pretty_string. rewrite (wf_size n g W).
  rewrite (mapM_ok _ (fun i => List.map (glyph_at n (pos_of g) i) (seq 0 n) ++ [NewLine])); [reflexivity|].
  intros i Hi. apply elem_of_seq in Hi.
  rewrite (mapM_ok _ (glyph_at n (pos_of g) i)); [reflexivity|].
  intros j Hj. apply elem_of_seq in Hj. rewrite (get_color_pos n g (i, j) W) by (split; cbn; lia). reflexivity.
Qed.
