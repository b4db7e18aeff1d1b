(** Queries about points and groups. *)
From stdpp Require Import relations sorting.
From Verif Require Import GroupMore Observe VerdictSpec PlayoutSpec.
From Verif Require Import MonadFacts BitsetFacts Struct Push Inv Remove Bridge GameFacts RulesFacts KoFacts BoardFacts ApiFacts LegalsFacts ScoreFacts ViewFacts ClaimFacts VerdictFacts.
From Coq Require Import Lia.

Local Notation length := Datatypes.length.

(** ** Points *)

Lemma NoDup_map_fst {A B} (f : A -> B) (l : list A) : NoDup l -> NoDup (List.map (fun x => (x, f x)) l).*1.
Proof. intros H. assert (E : (List.map (fun x => (x, f x)) l).*1 = l) by (clear; induction l as [|x l IH]; [reflexivity|]; cbn; f_equal; exact IH). rewrite E. exact H. Qed.

Lemma connected_points_api dbg n g p : wf n g -> on n p ->
  exists l, get_connected_points dbg g p = Ok l /\ NoDup l.*1 /\ forall q c, (q, c) ∈ l <-> on n q /\ adj p q /\ pos_of g q = c.
Proof.
  intros W Hp. rewrite (connected_points_ok dbg n g p W Hp). eexists. split; [reflexivity|]. split; [apply NoDup_map_fst, NoDup_nbrs|].
  intros q c. rewrite elem_of_list_In, in_map_iff. split.
  - intros (x & E & Hx). injection E as -> <-. apply elem_of_list_In, (elem_of_nbrs n p q Hp) in Hx. tauto.
  - intros (Hq & Ha & <-). exists q. split; [reflexivity|]. apply elem_of_list_In, (elem_of_nbrs n p q Hp). auto.
Qed.

Lemma connected_stones_api dbg n g p : wf n g -> on n p ->
  exists l, get_connected_stones dbg g p = Ok l /\ NoDup l.*1 /\ forall q c, (q, c) ∈ l <-> on n q /\ adj p q /\ pos_of g q = Some c.
Proof.
  intros W Hp. unfold get_connected_stones. destruct (connected_points_api dbg n g p W Hp) as (l & E & Nd & Hl). rewrite E. cbn [bind].
  eexists. split; [reflexivity|]. split.
  - clear -Nd. induction l as [|[q [c|]] l IH]; cbn in *; [constructor| |]; apply NoDup_cons in Nd as [Hq Nd]; [|auto].
    apply NoDup_cons. split; [|auto]. intros F. apply Hq. clear -F. apply elem_of_list_fmap in F as ([q' c'] & Eq & F). cbn in Eq. subst q'.
    apply elem_of_list_omap in F as ([q'' o] & Hx & Eo). cbn in Eo. destruct o; [|discriminate]. injection Eo as -> ->. apply elem_of_list_fmap. exists (q, Some c'). auto.
  - intros q c. rewrite elem_of_list_omap. split.
    + intros ([q' o] & Hx & Eo). cbn in Eo. destruct o; [|discriminate]. injection Eo as -> ->. apply Hl, Hx.
    + intros H. exists (q, Some c). split; [apply Hl, H|reflexivity].
Qed.

Lemma filterM_pure {A} (f : A -> res bool) (h : A -> bool) l : (forall x, x ∈ l -> f x = Ok (h x)) -> filterM f l = Ok (List.filter h l).
Proof.
  induction l as [|x l IH]; intros H; [reflexivity|]. cbn [filterM]. rewrite (H x (elem_of_list_here _ _)). cbn [bind].
  rewrite IH by (intros y Hy; apply H; right; exact Hy). cbn [bind List.filter]. destruct (h x); reflexivity.
Qed.

Lemma liberties_of_point dbg n g p : wf n g -> on n p ->
  exists l, get_liberties dbg g p = Ok l /\ NoDup l /\ (forall q, q ∈ l <-> on n q /\ adj p q /\ pos_of g q = None) /\
    has_liberties dbg g p = Ok (negb (length l =? 0)%nat).
Proof.
  intros W Hp. unfold get_liberties. rewrite (neighbors_ok dbg n g p W Hp). cbn [bind].
  rewrite (filterM_pure _ (fun x => mcolor_eqb (pos_of g x) None)).
  2:{ intros x Hx. apply (elem_of_nbrs n p x Hp) in Hx as [Hx _]. rewrite (get_color_pos n g x W Hx). reflexivity. }
  set (l := List.filter (fun x => mcolor_eqb (pos_of g x) None) (nbrs n p)). exists l. split; [reflexivity|].
  assert (Hl : forall q, q ∈ l <-> on n q /\ adj p q /\ pos_of g q = None).
  { intros q. unfold l. rewrite elem_of_list_In, filter_In, <- elem_of_list_In, (elem_of_nbrs n p q Hp).
    destruct (mcolor_eqb_spec (pos_of g q) None); intuition congruence. }
  split; [apply NoDup_ListNoDup, List.NoDup_filter, NoDup_ListNoDup, NoDup_nbrs|]. split; [exact Hl|].
  destruct (has_liberties_ok dbg n g p W Hp) as (v & E & Hv). rewrite E. f_equal. apply eq_true_iff_eq. rewrite Hv, negb_true_iff, Nat.eqb_neq. split.
  - intros (q & Hq). apply Hl in Hq. destruct l; [inversion Hq|cbn; lia].
  - intros H. destruct l as [|q l]; [cbn in H; lia|]. exists q. apply Hl. left.
Qed.

Lemma mapM_live g l : (forall k, k ∈ l -> exists grp, live g k = Some grp) ->
  exists gs, mapM (chain_at (chains g)) l = Ok gs /\ Forall2 (fun k grp => chains g !! k = Some (Some grp)) l gs.
Proof.
  induction l as [|k l IH]; intros H.
  - exists []. split; [reflexivity|constructor].
  - destruct (H k) as [gk Hk]; [left|]. destruct IH as (gs & E & F); [intros k' Hk'; apply H; right; exact Hk'|].
    exists (gk :: gs). cbn [mapM]. rewrite (chain_at_live _ _ _ Hk), E. split; [reflexivity|]. constructor; [apply live_chains, Hk|exact F].
Qed.

Lemma groups_of_point dbg n g p : wf n g -> on n p ->
  exists ks gs, get_connected_groups_idx dbg g (index n p) = Ok ks /\ get_connected_groups dbg g p = Ok gs /\ NoDup ks /\
    (forall k, k ∈ ks <-> exists q, on n q /\ adj p q /\ group_no g q = Some k) /\
    Forall2 (fun k grp => chains g !! k = Some (Some grp)) ks gs.
Proof.
  intros W Hp. unfold get_connected_groups. rewrite (wf_size n g W), two_idx'. change (index n p) with (idx n p).
  destruct (connected_spec dbg n g (idx n p) (wf_n n g W) (wf_size n g W) (wf0_board g (wf_0 n g W)) (idx_on n p Hp)) as (l & -> & Nd & Hl).
  cbn [bind]. destruct (mapM_live g l) as (gs & E & F).
  { intros k Hk. apply Hl in Hk as (j & _ & Hk). destruct (wf0_cell g (wf_0 n g W) j k Hk) as [grp H]. eauto. }
  exists l, gs. split; [reflexivity|]. split; [exact E|]. split; [exact Nd|]. split; [|exact F].
  intros k. rewrite Hl. split.
  - intros (j & Hj & Hk). pose proof (wf_on n g W j k Hk) as Hjn.
    exists (pt n j). split; [apply pt_on, Hjn|]. split.
    + apply (adj_nb n); [exact Hp|apply pt_on, Hjn|]. rewrite idx_pt by exact Hjn. exact Hj.
    + rewrite (group_no_cell n), idx_pt; assumption.
  - intros (q & Hq & Ha & E'). exists (idx n q). split; [apply adj_nb; assumption|]. rewrite <- (group_no_cell n g q W). exact E'.
Qed.

(** ** The iterator over a group, call by call *)

Lemma iter_steps dbg ns o k : forall fuel x l, iter_from fuel dbg ns o x = Ok l ->
  forall i, exists it, iter_after dbg ns (mkIter o (Some x) k) i = Ok it /\ it = mkIter o (l !! i) k /\
    exists it', iter_next dbg ns it = Ok (it', l !! i).
Proof.
  assert (Hend : forall i it, it = mkIter o None k -> iter_after dbg ns it i = Ok it).
  { induction i as [|i IH]; intros it ->; [reflexivity|]. cbn [iter_after iter_next it_next bind]. rewrite andb_false_r. cbn [bind it_origin it_num_stones]. apply IH. reflexivity. }
  assert (Hnone : iter_next dbg ns (mkIter o None k) = Ok (mkIter o None k, None)) by (unfold iter_next; cbn; rewrite andb_false_r; reflexivity).
  induction fuel as [|fuel IH]; intros x l H i; [discriminate|]. cbn [iter_from] in H.
  destruct (vget ns x) as [nx| |] eqn:Ev; cbn [bind] in H; [|discriminate..].
  destruct (Nat.eqb_spec nx o) as [->|Hne].
  - injection H as <-. assert (E : iter_next dbg ns (mkIter o (Some x) k) = Ok (mkIter o None k, Some x)).
    { unfold iter_next. cbn [it_next it_origin it_num_stones]. rewrite Ev. cbn [bind]. rewrite Nat.eqb_refl. cbn. rewrite andb_false_r. reflexivity. }
    destruct i as [|i]; [exists (mkIter o (Some x) k); cbn; eauto|]. exists (mkIter o None k). cbn [iter_after]. rewrite E. cbn [bind]. split; [apply Hend; reflexivity|].
    cbn. split; [reflexivity|]. eauto.
  - destruct (dbg && (nx =? x)%nat) eqn:Ed; [discriminate|].
    destruct (iter_from fuel dbg ns o nx) as [t| |] eqn:Et; cbn [bind] in H; [|discriminate..]. injection H as <-.
    assert (E : iter_next dbg ns (mkIter o (Some x) k) = Ok (mkIter o (Some nx) k, Some x)).
    { unfold iter_next. cbn [it_next it_origin it_num_stones]. rewrite Ev. cbn [bind]. destruct (Nat.eqb_spec nx o); [congruence|]. cbn [negb].
      rewrite (Nat.eqb_sym x nx), Ed. reflexivity. }
    destruct i as [|i]; [exists (mkIter o (Some x) k); cbn; eauto|]. cbn [iter_after]. rewrite E. cbn [bind]. destruct (IH nx t Et i) as (it & H1 & H2 & H3). exists it. cbn. auto.
Qed.

Lemma group_iterator dbg n g k grp : wf n g -> chains g !! k = Some (Some grp) ->
  exists l, NoDup l /\ (forall i, i ∈ l <-> exists p, on n p /\ i = index n p /\ group_no g p = Some k) /\
    group_iter dbg grp (next_stone g) = Ok l /\
    forall i, exists it it', iter_after dbg (next_stone g) (iter_new grp) i = Ok it /\
      iter_next dbg (next_stone g) it = Ok (it', l !! i) /\
      iter_size_hint it = (length l, Some (length l)).
Proof.
  intros W H. destruct (group_walk dbg n g k grp W H) as (l & E & Nd & _ & _ & Hn & _ & Hl).
  exists l. split; [exact Nd|]. split; [exact Hl|]. split; [exact E|]. intros i.
  destruct (iter_steps dbg (next_stone g) (g_origin grp) (g_num_stones grp) _ _ _ E i) as (it & H1 & -> & it' & H3).
  eexists _, it'. split; [exact H1|]. split; [exact H3|]. cbn. unfold iter_size_hint. cbn. rewrite Hn. reflexivity.
Qed.

(** ** Groups *)

Definition same_frame (g g' : group) : Prop :=
  g_color g' = g_color g /\ g_origin g' = g_origin g /\ g_last g' = g_last g /\ g_num_stones g' = g_num_stones g.

Lemma contains_bit g j : bits_ok (g_liberties g) -> (j < 368)%nat -> contains_liberty g j = Ok (lbit (g_liberties g) j).
Proof. intros. apply lib_get_spec; assumption. Qed.

Lemma new_group c i : bits_ok (g_liberties (group_new c i)) /\ g_color (group_new c i) = c /\ g_num_stones (group_new c i) = 1%nat /\
  g_origin (group_new c i) = i /\ g_last (group_new c i) = i /\
  is_dead (group_new c i) = true /\ forall j, (j < 368)%nat -> contains_liberty (group_new c i) j = Ok false.
Proof.
  assert (B : bits_ok (g_liberties (group_new c i))) by apply bits_ok_empty. split; [exact B|]. do 4 (split; [reflexivity|]). split.
  - apply is_dead_spec; [exact B|]. apply lbit_empty.
  - intros j Hj. rewrite (contains_bit _ _ B Hj). f_equal. apply lbit_empty.
Qed.

Definition fresh_in (l : list nat) (g : group) : Prop := NoDup l /\ forall j, j ∈ l -> contains_liberty g j = Ok false.

Lemma add_liberty_bit dbg g j : bits_ok (g_liberties g) -> (j < 368)%nat ->
  if dbg && lbit (g_liberties g) j then add_liberty dbg g j = Panic
  else exists g', add_liberty dbg g j = Ok g' /\ bits_ok (g_liberties g') /\ same_frame g g' /\
    forall i, lbit (g_liberties g') i = if (i =? j)%nat then true else lbit (g_liberties g) i.
Proof.
  intros B Hj. unfold add_liberty, add_liberty_unchecked. destruct (lib_set_spec true _ j B Hj) as (l' & E & B' & Hl').
  rewrite (lib_get_spec _ j B Hj), E. cbn [bind]. destruct dbg, (lbit (g_liberties g) j); cbn; try reflexivity; eexists; (split; [reflexivity|]; split; [exact B'|]; split; [repeat split|exact Hl']).
Qed.

Lemma add_liberties_bits dbg l : forall g, bits_ok (g_liberties g) -> Forall (fun j => (j < 368)%nat) l -> (dbg = true -> fresh_in l g) ->
  exists g', add_liberties dbg g l = Ok g' /\ bits_ok (g_liberties g') /\ same_frame g g' /\
    forall j, lbit (g_liberties g') j = true <-> j ∈ l \/ lbit (g_liberties g) j = true.
Proof.
  induction l as [|x l IH]; intros g B HF Hd.
  - exists g. split; [reflexivity|]. split; [exact B|]. split; [repeat split|]. intros j. rewrite elem_of_nil. tauto.
  - apply Forall_cons in HF as [Hx HF]. pose proof (add_liberty_bit dbg g x B Hx) as H.
    assert (Hfx : dbg && lbit (g_liberties g) x = false).
    { destruct dbg; [|reflexivity]. destruct (Hd eq_refl) as [_ F]. specialize (F x (elem_of_list_here _ _)). rewrite (contains_bit g x B Hx) in F. injection F as ->. reflexivity. }
    rewrite Hfx in H. destruct H as (g1 & E & B1 & (F1 & F2 & F3 & F4) & H1). destruct (IH g1 B1 HF) as (g' & E' & B' & (G1 & G2 & G3 & G4) & H').
    { intros D. destruct (Hd D) as [Nd F]. apply NoDup_cons in Nd as [Nx Nd]. split; [exact Nd|]. intros j Hj. rewrite Forall_forall in HF.
      rewrite (contains_bit g1 j B1 (HF j Hj)), H1. destruct (Nat.eqb_spec j x) as [->|]; [destruct (Nx Hj)|].
      rewrite <- (contains_bit g j B (HF j Hj)). apply F. right. exact Hj. }
    exists g'. unfold add_liberties in *. cbn [foldM]. rewrite E. cbn [bind]. split; [exact E'|]. split; [exact B'|]. split; [repeat split; congruence|].
    intros j. rewrite H', H1, elem_of_cons. destruct (Nat.eqb_spec j x); intuition congruence.
Qed.

Lemma add_liberties_panic l : forall g, bits_ok (g_liberties g) -> Forall (fun j => (j < 368)%nat) l -> ~ fresh_in l g -> add_liberties true g l = Panic.
Proof.
  induction l as [|x l IH]; intros g B HF Hn.
  - destruct Hn. split; [constructor|]. intros j Hj. apply elem_of_nil in Hj. destruct Hj.
  - apply Forall_cons in HF as [Hx HF]. pose proof (add_liberty_bit true g x B Hx) as H. cbn [andb] in H. unfold add_liberties in *. cbn [foldM].
    destruct (lbit (g_liberties g) x) eqn:Ex; [rewrite H; reflexivity|]. destruct H as (g1 & -> & B1 & _ & H1). cbn [bind]. apply IH; [exact B1|exact HF|].
    intros [Nd F]. apply Hn. rewrite Forall_forall in HF. split.
    + apply NoDup_cons. split; [|exact Nd]. intros Hi. specialize (F x Hi). rewrite (contains_bit g1 x B1 Hx), H1, Nat.eqb_refl in F. discriminate.
    + intros j Hj. apply elem_of_cons in Hj as [->|Hj]; [rewrite (contains_bit g x B Hx), Ex; reflexivity|].
      specialize (F j Hj). rewrite (contains_bit g1 j B1 (HF j Hj)), H1 in F. rewrite (contains_bit g j B (HF j Hj)). destruct (j =? x)%nat; [discriminate|exact F].
Qed.

Lemma contains_true g j : bits_ok (g_liberties g) -> (j < 368)%nat -> contains_liberty g j = Ok true <-> lbit (g_liberties g) j = true.
Proof. intros B H. rewrite (contains_bit g j B H). split; [intros E; injection E as ->; reflexivity|intros ->; reflexivity]. Qed.

Lemma add_liberties_api dbg g l : bits_ok (g_liberties g) -> (forall j, j ∈ l -> (j < 368)%nat) ->
  ((dbg = true -> fresh_in l g) ->
     exists g', add_liberties dbg g l = Ok g' /\ bits_ok (g_liberties g') /\ same_frame g g' /\
       forall j, (j < 368)%nat -> contains_liberty g' j = Ok true <-> j ∈ l \/ contains_liberty g j = Ok true) /\
  (dbg = true -> ~ fresh_in l g -> add_liberties dbg g l = Panic).
Proof.
  intros B HF. rewrite <- Forall_forall in HF. split.
  - intros Hd. destruct (add_liberties_bits dbg l g B HF Hd) as (g' & E & B' & F & H). exists g'. split; [exact E|]. split; [exact B'|]. split; [exact F|].
    intros j Hj. rewrite !contains_true by assumption. apply H.
  - intros -> Hn. apply add_liberties_panic; assumption.
Qed.

Lemma union_liberties_api g h : bits_ok (g_liberties g) -> bits_ok (g_liberties h) ->
  bits_ok (g_liberties (union_liberties g (g_liberties h))) /\ same_frame g (union_liberties g (g_liberties h)) /\
  forall j, (j < 368)%nat ->
    contains_liberty (union_liberties g (g_liberties h)) j = Ok true <-> contains_liberty g j = Ok true \/ contains_liberty h j = Ok true.
Proof.
  intros A B. destruct (lib_merge_spec _ _ A B) as [C H]. split; [exact C|]. split; [repeat split|]. intros j Hj.
  rewrite !contains_true by assumption. cbn. rewrite H, orb_true_iff. reflexivity.
Qed.

Lemma iter_with_index_from (cs : groups) : forall a,
  let l := omap (fun '(i, o) => match o with Some g => Some (i, g) | None => None end) (zip (seq a (length cs)) cs) in
  StronglySorted lt l.*1 /\ Forall (fun i => a <= i)%nat l.*1 /\ forall k grp, (k, grp) ∈ l <-> (a <= k)%nat /\ cs !! (k - a)%nat = Some (Some grp).
Proof.
  induction cs as [|c cs IH]; intros a.
  - cbn. split; [constructor|]. split; [constructor|]. intros k grp. rewrite elem_of_nil. split; [tauto|]. intros [_ H]. discriminate.
  - cbn [length seq zip zip_with omap list_omap]. specialize (IH (S a)). cbv zeta in IH. destruct IH as (S1 & F1 & H1).
    set (l := omap _ _) in *. assert (F2 : Forall (fun i => a <= i)%nat l.*1) by (eapply Forall_impl; [exact F1|cbn; intros; lia]).
    assert (Hr : forall k grp, (k, grp) ∈ l <-> (S a <= k)%nat /\ (c :: cs) !! (k - a)%nat = Some (Some grp)).
    { intros k grp. rewrite H1. split; intros [Hk H]; (split; [exact Hk|]); assert (Ek : (k - a = S (k - S a))%nat) by (clear -Hk; lia); [rewrite Ek|rewrite Ek in H]; exact H. }
    destruct c as [gr|]; cbv zeta.
    + split; [constructor; [exact S1|eapply Forall_impl; [exact F1|cbn; intros x Hx; exact Hx]]|]. split; [constructor; [apply Nat.le_refl|exact F2]|]. intros k grp. rewrite elem_of_cons, Hr. split.
      * intros [E|[Hk H]]; [injection E as -> ->; split; [lia|rewrite Nat.sub_diag; reflexivity]|split; [lia|exact H]].
      * intros [Hk H]. destruct (Nat.eq_dec k a) as [->|]; [left; rewrite Nat.sub_diag in H; cbn in H; congruence|right; split; [lia|exact H]].
    + split; [exact S1|]. split; [exact F2|]. intros k grp. rewrite Hr. split; [intros [Hk H]; split; [lia|exact H]|].
      intros [Hk H]. destruct (Nat.eq_dec k a) as [->|]; [rewrite Nat.sub_diag in H; discriminate|split; [lia|exact H]].
Qed.

Lemma iter_with_index_api (cs : groups) : StronglySorted lt (iter_with_index cs).*1 /\
  forall k grp, (k, grp) ∈ iter_with_index cs <-> cs !! k = Some (Some grp).
Proof.
  destruct (iter_with_index_from cs 0) as (H1 & _ & H2). split; [exact H1|]. intros k grp. unfold iter_with_index. rewrite H2, Nat.sub_0_r. intuition lia.
Qed.

Lemma remove_liberty_api dbg g j : bits_ok (g_liberties g) -> (j < 368)%nat ->
  (dbg = false \/ contains_liberty g j = Ok true ->
     exists g', remove_liberty dbg g j = Ok g' /\ bits_ok (g_liberties g') /\ same_frame g g' /\
       forall i, (i < 368)%nat -> contains_liberty g' i = Ok true <-> i <> j /\ contains_liberty g i = Ok true) /\
  (dbg = true -> contains_liberty g j = Ok false -> remove_liberty dbg g j = Panic).
Proof.
  intros B Hj. unfold remove_liberty. pose proof (contains_bit g j B Hj) as Hc. unfold contains_liberty in Hc. rewrite Hc. split.
  - intros Hd. destruct (lib_set_spec false (g_liberties g) j B Hj) as (l' & E & B' & Hb).
    assert (debug_assert dbg (Ok (lbit (g_liberties g) j)) = Ok tt) as ->.
    { destruct Hd as [->|Hd]; [reflexivity|]. apply contains_true in Hd; [|assumption..]. rewrite Hd. destruct dbg; reflexivity. }
    cbn [bind]. rewrite E. cbn [bind]. eexists. split; [reflexivity|]. split; [exact B'|]. split; [repeat split|].
    intros i Hi. rewrite !contains_true by assumption. cbn. rewrite Hb. destruct (Nat.eqb_spec i j); intuition congruence.
  - intros -> Hd. rewrite (contains_bit g j B Hj) in Hd. injection Hd as ->. reflexivity.
Qed.

Lemma union_slice_api g l : bits_ok (g_liberties g) -> (forall j, j ∈ l -> (j < 368)%nat) ->
  exists g', union_liberties_slice g l = Ok g' /\ bits_ok (g_liberties g') /\ same_frame g g' /\
    forall j, (j < 368)%nat -> contains_liberty g' j = Ok true <-> j ∈ l \/ contains_liberty g j = Ok true.
Proof.
  intros B HF. rewrite <- Forall_forall in HF. destruct (union_liberties_ok g l B HF) as (g' & E & (S1 & S2 & S3 & S4) & B' & H).
  exists g'. split; [exact E|]. split; [exact B'|]. split; [repeat split; congruence|]. intros j Hj. rewrite !contains_true by assumption. apply H.
Qed.

(** the queries of a group agree on its liberties *)
Lemma group_questions g : bits_ok (g_liberties g) ->
  exists l, group_liberties g = Ok l /\ StronglySorted lt l /\ (forall j, j ∈ l <-> (j < 368)%nat /\ contains_liberty g j = Ok true) /\
    number_of_liberties g = length l /\ is_dead g = (length l =? 0)%nat /\ is_atari g = (length l =? 1)%nat.
Proof.
  intros B. destruct (bitset_api _ B) as (_ & _ & _ & _ & ones & E & S & H & C & A). exists ones. split; [exact E|]. split; [exact S|]. split; [exact H|].
  split; [exact C|]. split; [|unfold is_atari; unfold number_of_liberties; rewrite C; reflexivity].
  unfold is_dead. destruct (lib_any (g_liberties g)).
  - destruct ones; [destruct (proj1 A eq_refl eq_refl)|reflexivity].
  - destruct ones; [reflexivity|]. discriminate (proj2 A ltac:(discriminate)).
Qed.
