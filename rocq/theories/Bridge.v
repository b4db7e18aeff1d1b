(** From group numbers and bit sets to positions: the internal state of a
    well-formed board means what the specification says. *)
From stdpp Require Import relations.
From Verif Require Export Reach.
From Verif Require Import Spec Goban BitsetFacts CoordFacts Struct Push Inv Remove Capture.
From Coq Require Import Lia.

Definition idx (n : nat) (p : coord) : nat := (fst p * n + snd p)%nat.
Definition pt (n i : nat) : coord := (i / n, i mod n)%nat.

Lemma idx_on n p : on n p -> (idx n p < n * n)%nat.
Proof. intros [H1 H2]. apply idx_bound; assumption. Qed.

Lemma pt_on n i : (i < n * n)%nat -> on n (pt n i).
Proof.
  intros H. assert (n <> 0)%nat by (intros ->; lia). split; cbn.
  - apply Nat.div_lt_upper_bound; lia.
  - apply Nat.mod_upper_bound. assumption.
Qed.

Lemma idx_pt n i : (i < n * n)%nat -> idx n (pt n i) = i.
Proof. intros H. unfold idx, pt. cbn [fst snd]. assert (n <> 0)%nat by (intros ->; lia).
  pose proof (Nat.div_mod i n). lia. Qed.

Lemma pt_idx n p : on n p -> pt n (idx n p) = p.
Proof.
  destruct p as [r c]. intros [_ H]. unfold pt, idx. cbn [fst snd] in *.
  destruct (divmod_idx n r c H) as [-> ->]. reflexivity.
Qed.

Lemma idx_inj n p q : on n p -> on n q -> idx n p = idx n q -> p = q.
Proof. intros Hp Hq H. rewrite <- (pt_idx n p Hp), <- (pt_idx n q Hq), H. reflexivity. Qed.

Lemma on_pos n p : on n p -> (1 <= n)%nat.
Proof. intros [H _]. lia. Qed.

Lemma adj_sym p q : adj p q -> adj q p.
Proof. unfold adj. intuition lia. Qed.

Lemma adj_adjc p q : adj p q <-> adjc p q.
Proof. unfold adj, adjc. intuition lia. Qed.

Lemma adj_nb n p q : on n p -> on n q -> adj p q <-> idx n q ∈ nb n (idx n p).
Proof.
  intros Hp Hq. pose proof (on_pos n p Hp). rewrite elem_of_nb by (try apply idx_on; assumption || lia).
  change (idx n p / n, idx n p mod n)%nat with (pt n (idx n p)).
  change (idx n q / n, idx n q mod n)%nat with (pt n (idx n q)).
  rewrite !pt_idx by assumption. rewrite adj_adjc. pose proof (idx_on n q Hq). tauto.
Qed.

Lemma two_idx' n p : two_to_1dim (n, n) p = idx n p.
Proof. reflexivity. Qed.

Lemma get_color_idx_ok g i : wf0 g -> (i < 361)%nat -> get_color_idx g i = Ok (col g i).
Proof.
  intros W Hi. unfold get_color_idx. rewrite vget_board by (rewrite (wf0_board g W); exact Hi). cbn [bind].
  unfold col. destruct (cell g i) as [k|] eqn:E; [|reflexivity].
  destruct (wf0_cell g W i k E) as [grp Hk]. rewrite (chain_at_live _ _ _ Hk), Hk. reflexivity.
Qed.

Lemma get_color_ok n g p : wf n g -> on n p -> get_color g p = Ok (col g (idx n p)).
Proof.
  intros W Hp. unfold get_color. rewrite (wf_size n g W), two_idx'. apply get_color_idx_ok.
  - apply (wf_0 n g W).
  - pose proof (sq_le n (wf_n n g W)). pose proof (idx_on n p Hp). lia.
Qed.

Lemma pos_of_col n g p : wf n g -> on n p -> pos_of g p = col g (idx n p).
Proof. intros W Hp. unfold pos_of. rewrite (get_color_ok n g p W Hp). reflexivity. Qed.

(** congruence *)
Lemma same_pos_sym n P Q : same_pos n P Q -> same_pos n Q P.
Proof. intros H p Hp. symmetry. apply H, Hp. Qed.

Lemma same_pos_refl n P : same_pos n P P.
Proof. intros p _. reflexivity. Qed.

Lemma same_pos_trans n P Q R : same_pos n P Q -> same_pos n Q R -> same_pos n P R.
Proof. intros H1 H2 p Hp. rewrite (H1 p Hp). apply H2, Hp. Qed.

Lemma connected_ext n P Q a b : same_pos n P Q -> connected n P a b -> connected n Q a b.
Proof.
  intros H HC. induction HC as [|a b d (H1 & H2 & H3 & H4) _ IH]; [apply rtc_refl|].
  eapply rtc_l; [|exact IH]. repeat split; try apply H1; try apply H2; try assumption.
  rewrite <- (H a H1), <- (H b H2). exact H4.
Qed.

Lemma connected_on n P a b : on n a -> connected n P a b -> on n b.
Proof. intros Ha H. induction H as [|a b d (H1 & H2 & H3 & H4) _ IH]; [exact Ha|]. apply IH, H2. Qed.

Lemma connected_same n P a b : connected n P a b -> P a = P b.
Proof. intros H. induction H as [|a b d (H1 & H2 & H3 & H4) _ IH]; [reflexivity|]. congruence. Qed.

Lemma connected_sym n P a b : connected n P a b -> connected n P b a.
Proof.
  apply rtc_sym. intros x y (H1 & H2 & H3 & H4). repeat split; try apply H1; try apply H2; [|congruence].
  apply adj_sym, H3.
Qed.

Lemma connected_trans n P a b d : connected n P a b -> connected n P b d -> connected n P a d.
Proof. intros H1 H2. etransitivity; eassumption. Qed.

Lemma liberty_ext n P Q p l : same_pos n P Q -> liberty n P p l -> liberty n Q p l.
Proof.
  intros H (H1 & H2 & q & H3 & H4). split; [exact H1|]. split; [rewrite <- (H l H1); exact H2|].
  exists q. split; [eapply connected_ext; eassumption|exact H4].
Qed.

Lemma breathes_ext n P Q p : same_pos n P Q -> breathes n P p <-> breathes n Q p.
Proof.
  intros H. split; intros [l Hl]; exists l; eapply liberty_ext; try eassumption. apply same_pos_sym, H.
Qed.

Lemma breathes_connected n P a b : connected n P a b -> breathes n P a -> breathes n P b.
Proof.
  intros H (l & H1 & H2 & q & H3 & H4). exists l. split; [exact H1|]. split; [exact H2|]. exists q.
  split; [|exact H4]. eapply connected_trans; [apply connected_sym, H|exact H3].
Qed.

Lemma put_ext n P Q p c : same_pos n P Q -> same_pos n (put P p c) (put Q p c).
Proof. intros H q Hq. unfold put. destruct (decide (q = p)); [reflexivity|]. apply H, Hq. Qed.

Lemma taken_ext n P Q p c q : same_pos n P Q -> taken n P p c q -> taken n Q p c q.
Proof.
  intros H (t & H1 & H2 & H3 & H4 & H5). exists t. split; [exact H1|]. split; [exact H2|].
  split; [rewrite <- (H t H1); exact H3|]. split; [eapply connected_ext; eassumption|].
  intros HB. apply H5. revert HB. apply breathes_ext, H.
Qed.

Lemma cleared_ext n (D D' : coord -> Prop) P P' Q Q' :
  (forall q, on n q -> D q <-> D' q) -> same_pos n P P' -> same_pos n Q Q' ->
  cleared n D P Q -> cleared n D' P' Q'.
Proof.
  intros HD HP HQ H q Hq. destruct (H q Hq) as [H1 H2]. rewrite <- (HP q Hq), <- (HQ q Hq).
  rewrite <- (HD q Hq). tauto.
Qed.

Lemma go_move_ext s n P P' p c R R' :
  same_pos n P P' -> same_pos n R R' -> go_move s n P p c R -> go_move s n P' p c R'.
Proof.
  intros HP HR (Q & H1 & H2). exists Q. split.
  - eapply cleared_ext; [|apply put_ext, HP|apply same_pos_refl|exact H1].
    intros q Hq. split; apply taken_ext, put_ext; [exact HP|apply same_pos_sym, HP].
  - eapply cleared_ext; [|apply same_pos_refl|exact HR|exact H2]. tauto.
Qed.

(** chains *)
Lemma connected_cell n g p q k :
  wf n g -> on n p -> cell g (idx n p) = Some k ->
  connected n (pos_of g) p q <-> on n q /\ cell g (idx n q) = Some k.
Proof.
  intros W Hp Hk. split.
  - intros H. induction H as [|a b d (H1 & H2 & H3 & H4) _ IH]; [tauto|]. apply IH; [exact H2|].
    rewrite !(pos_of_col n g) in H4 by assumption.
    destruct (cell g (idx n b)) as [k'|] eqn:Eb.
    + f_equal. symmetry. apply (wf_max n g W (idx n a) (idx n b)); try assumption.
      apply adj_nb; assumption.
    + destruct (col_cell n g _ _ W Hk) as (grp & _ & Hc). unfold col at 2 in H4. rewrite Eb in H4. congruence.
  - intros [Hq Hkq].
    assert (H : rtc (gstep n g k) (idx n p) (idx n q)) by (apply (wf_conn n g W); assumption).
    rewrite <- (pt_idx n p Hp), <- (pt_idx n q Hq). clear -H W.
    induction H as [a|a b d (H1 & H2 & H3) _ IH]; [apply rtc_refl|].
    eapply rtc_l; [|exact IH].
    assert (Ha : (a < n * n)%nat) by (eapply wf_on; eassumption).
    assert (Hb : (b < n * n)%nat) by (eapply wf_on; eassumption).
    split; [apply pt_on, Ha|]. split; [apply pt_on, Hb|]. split.
    + apply (adj_nb n); [apply pt_on; assumption..|]. rewrite !idx_pt by assumption. exact H1.
    + rewrite !(pos_of_col n g) by (try apply pt_on; assumption). rewrite !idx_pt by assumption.
      unfold col. rewrite H2, H3. reflexivity.
Qed.

Lemma liberty_lbit n g p k grp l :
  wf n g -> on n p -> cell g (idx n p) = Some k -> live g k = Some grp ->
  liberty n (pos_of g) p l <-> on n l /\ lbit (g_liberties grp) (idx n l) = true.
Proof.
  intros W Hp Hk Hg. unfold liberty. split.
  - intros (Hl & Hn & q & Hq & Ha). split; [exact Hl|].
    pose proof (connected_on n _ p q Hp Hq) as Hqo. apply (connected_cell n g p q k W Hp Hk) in Hq as [_ Hq].
    apply (wf_lib n g W k grp _ Hg). split.
    + rewrite (pos_of_col n g l W Hl) in Hn. apply (col_None n g _ W), Hn.
    + exists (idx n q). split; [exact Hq|]. apply adj_nb; assumption.
  - intros [Hl Hb]. apply (wf_lib n g W k grp _ Hg) in Hb as (Hc & x & Hx & Hnb).
    split; [exact Hl|]. split.
    + rewrite (pos_of_col n g l W Hl). apply (col_None n g _ W), Hc.
    + assert (Hxn : (x < n * n)%nat) by (eapply wf_on; eassumption).
      exists (pt n x). split.
      * apply (connected_cell n g p _ k W Hp Hk). rewrite idx_pt by exact Hxn. split; [apply pt_on, Hxn|exact Hx].
      * apply (adj_nb n); [apply pt_on, Hxn|exact Hl|]. rewrite idx_pt by exact Hxn. exact Hnb.
Qed.

(** liberties only ever point at the board *)
Lemma lbit_on n g k grp j : wf n g -> live g k = Some grp -> lbit (g_liberties grp) j = true -> (j < n * n)%nat.
Proof.
  intros W Hg Hb. apply (wf_lib n g W k grp _ Hg) in Hb as (_ & x & Hx & Hnb).
  apply nb_bound in Hnb; [exact Hnb|pose proof (wf_n n g W); lia|]. eapply wf_on; eassumption.
Qed.

Lemma breathes_lbit n g p k grp :
  wf n g -> on n p -> cell g (idx n p) = Some k -> live g k = Some grp ->
  breathes n (pos_of g) p <-> exists j, lbit (g_liberties grp) j = true.
Proof.
  intros W Hp Hk Hg. unfold breathes. split.
  - intros [l Hl]. apply (liberty_lbit n g p k grp l W Hp Hk Hg) in Hl as [_ Hl]. eauto.
  - intros [j Hj]. pose proof (lbit_on n g k grp j W Hg Hj) as Hjn. exists (pt n j).
    apply (liberty_lbit n g p k grp _ W Hp Hk Hg). rewrite idx_pt by exact Hjn. split; [apply pt_on, Hjn|exact Hj].
Qed.

Lemma breathes_dead n g p k grp :
  wf n g -> on n p -> cell g (idx n p) = Some k -> live g k = Some grp ->
  ~ breathes n (pos_of g) p <-> is_dead grp = true.
Proof.
  intros W Hp Hk Hg. rewrite (breathes_lbit n g p k grp W Hp Hk Hg).
  rewrite is_dead_spec by (apply (wf0_chain g (wf_0 n g W) k grp Hg)). split.
  - intros H j. destruct (lbit (g_liberties grp) j) eqn:E; [|reflexivity]. exfalso. eauto.
  - intros H [j Hj]. specialize (H j). congruence.
Qed.

(** counting *)
Lemma elem_of_points n p : p ∈ points n <-> on n p.
Proof.
  unfold points. rewrite elem_of_list_In. destruct p as [r c].
  etransitivity; [exact (in_prod_iff (seq 0 n) (seq 0 n) r c)|]. rewrite !in_seq.
  unfold on. cbn. lia.
Qed.

Lemma NoDup_list_prod {A B} (l : list A) (m : list B) : NoDup l -> NoDup m -> NoDup (list_prod l m).
Proof.
  intros Hl Hm. induction Hl as [|a l Ha Hl IH]; [apply NoDup_nil_2|]. cbn. apply NoDup_app. split; [|split; [|exact IH]].
  - apply (NoDup_fmap_2 (fun y => (a, y))), Hm.
  - intros [x y] H1 H2. apply elem_of_list_In, in_map_iff in H1 as (b & E & _). injection E as -> ->.
    apply elem_of_list_In, in_prod_iff in H2 as [H2 _]. apply elem_of_list_In in H2. contradiction.
Qed.

Lemma NoDup_points n : NoDup (points n).
Proof. apply NoDup_list_prod; apply NoDup_ListNoDup, seq_NoDup. Qed.

Lemma NoDup_fmap_in {A B} (f : A -> B) (l : list A) :
  (forall x y, x ∈ l -> y ∈ l -> f x = f y -> x = y) -> NoDup l -> NoDup (f <$> l).
Proof.
  intros Hf Hl. induction Hl as [|a l Ha Hl IH]; [apply NoDup_nil_2|]. rewrite fmap_cons. apply NoDup_cons. split.
  - intros H. apply elem_of_list_fmap in H as (x & E & Hx). apply Ha.
    rewrite (Hf a x); [exact Hx|left|right; exact Hx|exact E].
  - apply IH. intros x y Hx Hy. apply Hf; right; assumption.
Qed.

Lemma points_perm n : points n ≡ₚ pt n <$> seq 0 (n * n).
Proof.
  apply NoDup_Permutation.
  - apply NoDup_points.
  - apply NoDup_fmap_in.
    + intros x y Hx Hy E. apply elem_of_seq in Hx, Hy.
      rewrite <- (idx_pt n x), <- (idx_pt n y), E by lia. reflexivity.
    + apply NoDup_ListNoDup, seq_NoDup.
  - intros p. rewrite elem_of_points, elem_of_list_fmap. split.
    + intros Hp. exists (idx n p). rewrite pt_idx by exact Hp. split; [reflexivity|]. apply elem_of_seq.
      pose proof (idx_on n p Hp). lia.
    + intros (i & -> & Hi). apply elem_of_seq in Hi. apply pt_on. lia.
Qed.

Lemma count_icount n (P : pos) (f : nat -> option color) c :
  (forall i, (i < n * n)%nat -> P (pt n i) = f i) -> count n P c = icount n f c.
Proof.
  intros H. unfold count, icount. rewrite (points_perm n).
  assert (G : forall l, (forall i, i ∈ l -> P (pt n i) = f i) ->
     length (filter (fun p => P p = Some c) (pt n <$> l)) = length (filter (fun j => f j = Some c) l)).
  { induction l as [|a l IH]; intros Hl; [reflexivity|]. rewrite fmap_cons, !filter_cons, (Hl a) by left.
    specialize (IH (fun i Hi => Hl i (elem_of_list_further _ _ _ Hi))).
    destruct (decide (f a = Some c)); cbn; rewrite IH; reflexivity. }
  apply G. intros i Hi. apply elem_of_seq in Hi. apply H. lia.
Qed.

Lemma count_pos n g c : wf n g -> count n (pos_of g) c = icount n (col g) c.
Proof.
  intros W. apply count_icount. intros i Hi. rewrite (pos_of_col n g) by (try apply pt_on; assumption).
  rewrite idx_pt by exact Hi. reflexivity.
Qed.

Lemma count_ext n P Q c : same_pos n P Q -> count n P c = count n Q c.
Proof.
  intros H. unfold count. f_equal. apply filter_ext_in. intros p Hp. apply elem_of_points in Hp.
  rewrite (H p Hp). reflexivity.
Qed.

(** a move: put the stone, clear the captures *)
Theorem move_spec dbg n g p c s :
  wf n g -> on n p -> pos_of g p = None ->
  (push_wth_feedback dbg g p c = Panic /\ (N.of_nat (length (chains g)) = 65535)%N /\
   ~ one_friend n (pos_of g) p c) \/
  exists g1 dead u g' removed ko,
    push_wth_feedback dbg g p c = Ok (g1, dead, u) /\
    remove_captured_stones_aux dbg g1 s dead u = Ok (g', removed, ko) /\
    wf n g1 /\ wf n g' /\
    same_pos n (pos_of g1) (put (pos_of g) p c) /\
    (one_friend n (pos_of g) p c /\ length (chains g') = length (chains g) \/
     ~ one_friend n (pos_of g) p c /\ length (chains g') = S (length (chains g))) /\
    length (chains g1) = length (chains g') /\
    go_move s n (pos_of g) p c (pos_of g') /\
    (forall x, rem_of removed x + N.of_nat (count n (pos_of g') x) =
               N.of_nat (count n (put (pos_of g) p c) x))%N /\
    (rem_total removed + 361 * N.of_nat (dslots g) <= 361 * N.of_nat (dslots g'))%N /\
    (forall q, ko = Some q <-> on n q /\ taken n (put (pos_of g) p c) p c q /\
                 forall q', on n q' -> taken n (put (pos_of g) p c) p c q' -> q' = q) /\
    (dead = [] <-> forall q, on n q -> ~ taken n (put (pos_of g) p c) p c q).
Proof.
  intros W Hp Hemp. rewrite (pos_of_col n g p W Hp) in Hemp. apply (col_None n g _ W) in Hemp.
  destruct p as [r cc]. destruct Hp as [Hr Hcc]. cbn [fst snd] in Hr, Hcc.
  set (p := (r, cc)) in *. assert (Hp : on n p) by (split; assumption).
  pose proof (push_spec dbg n g r cc c W Hr Hcc Hemp) as HPS.
  assert (Hfr : one_friend n (pos_of g) p c <-> one_same n g (idx n p) c).
  { split.
    - intros (q & Hq & Ha & Hc & Huniq). exists (idx n q). split; [apply adj_nb; assumption|].
      rewrite <- (pos_of_col n g q W Hq). split; [exact Hc|]. intros j' Hj' Hc'.
      assert (Hjn : (j' < n * n)%nat).
      { apply col_Some_inv in Hc' as (k & _ & Hk & _). eapply (wf_on n g W); eassumption. }
      rewrite (pos_of_col n g q W Hq) in Hc. apply col_Some_inv in Hc as (k & gk & Hk & _).
      specialize (Huniq (pt n j') (pt_on n j' Hjn)).
      assert (Hcon : connected n (pos_of g) q (pt n j')).
      { apply Huniq.
        - apply (adj_nb n); [exact Hp|apply pt_on, Hjn|]. rewrite idx_pt by exact Hjn. exact Hj'.
        - rewrite (pos_of_col n g) by (try apply pt_on; assumption). rewrite idx_pt by exact Hjn. exact Hc'. }
      apply (connected_cell n g q _ k W Hq Hk) in Hcon as [_ Hcon]. rewrite idx_pt in Hcon by exact Hjn. congruence.
    - intros (j & Hj & Hc & Huniq).
      assert (Hjn : (j < n * n)%nat).
      { apply col_Some_inv in Hc as (k & _ & Hk & _). eapply (wf_on n g W); eassumption. }
      exists (pt n j). split; [apply pt_on, Hjn|]. split; [|split].
      + apply (adj_nb n); [exact Hp|apply pt_on, Hjn|]. rewrite idx_pt by exact Hjn. exact Hj.
      + rewrite (pos_of_col n g) by (try apply pt_on; assumption). rewrite idx_pt by exact Hjn. exact Hc.
      + intros q' Hq' Ha' Hc'. rewrite (pos_of_col n g q' W Hq') in Hc'.
        specialize (Huniq (idx n q') (proj1 (adj_nb n p q' Hp Hq') Ha') Hc').
        apply col_Some_inv in Hc as (k & gk & Hk & _).
        apply (connected_cell n g _ q' k W (pt_on n j Hjn)); [rewrite idx_pt by exact Hjn; exact Hk|]. split; [exact Hq'|].
        congruence. }
  assert (Hfr' : ~ one_same n g (idx n p) c -> ~ one_friend n (pos_of g) p c).
  { intros H Hf. apply H, Hfr, Hf. }
  destruct HPS as [(HP & HF & HN)|(g1 & dead & u & E1 & W1 & L1 & Hu & Hds & Col1 & _ & _ & Nd & _ & Hdead)];
    [left; split; [exact HP|]; split; [exact HF|apply Hfr', HN]|right].
  fold p in E1. change (r * n + cc)%nat with (idx n p) in *. clearbody p. clear r cc Hr Hcc.
  assert (HP1 : same_pos n (pos_of g1) (put (pos_of g) p c)).
  { intros q Hq. rewrite (pos_of_col n g1 q W1 Hq), Col1. unfold put. destruct (decide (q = p)) as [->|Hqp].
    - destruct (decide (idx n p = idx n p)); [reflexivity|contradiction].
    - destruct (decide (idx n q = idx n p)) as [D|D].
      + destruct Hqp. eapply idx_inj; eassumption.
      + rewrite (pos_of_col n g q W Hq). reflexivity. }
  destruct (col_cell n g1 _ _ W1 Hu) as (gu & Hgu & Hcu).
  assert (Hcolu : g_color gu = c).
  { rewrite Col1 in Hcu. destruct (decide (idx n p = idx n p)); [congruence|contradiction]. }
  assert (Hdead' : forall k, k ∈ dead -> exists grp, live g1 k = Some grp /\ g_color grp = opp c).
  { intros k Hk. apply Hdead in Hk as (grp & H1 & H2 & _). eauto. }
  destruct (captured_spec dbg n g1 s dead u gu c W1 Nd Hgu Hcolu Hdead')
    as (g2 & gu2 & g' & removed & ko & E2 & W2 & W' & L2 & C2 & Col2 & Hgu2 & Hsh & Col' & R1 & R3 & R2 & Hko).
  (* what the dead groups are *)
  assert (Htaken : forall q, on n q -> taken n (pos_of g1) p c q <-> cell g1 (idx n q) ∈ (Some <$> dead)).
  { intros q Hq. split.
    - intros (t & Ht & Hadj & Hct & Hconn & Hnb).
      rewrite (pos_of_col n g1 t W1 Ht) in Hct. apply col_Some_inv in Hct as (k & gk & Hk & Hgk & Hck).
      apply (connected_cell n g1 t q k W1 Ht Hk) in Hconn as [_ Hkq]. rewrite Hkq.
      apply list_In_mapsome, Hdead. exists gk. split; [exact Hgk|]. split; [exact Hck|]. split.
      + intros j. destruct (lbit (g_liberties gk) j) eqn:Eb; [|reflexivity]. exfalso. apply Hnb.
        apply (breathes_lbit n g1 t k gk W1 Ht Hk Hgk). eauto.
      + exists (idx n t). split; [|exact Hk]. apply adj_nb; assumption.
    - intros H. apply elem_of_list_fmap in H as (k & Hkq & Hk). apply Hdead in Hk as (gk & Hgk & Hck & Hb & j & Hj & Hcj).
      assert (Hjn : (j < n * n)%nat) by (eapply (wf_on n g1 W1); eassumption).
      exists (pt n j). split; [apply pt_on, Hjn|]. split.
      + apply (adj_nb n); [exact Hp|apply pt_on, Hjn|]. rewrite idx_pt by exact Hjn. exact Hj.
      + rewrite (pos_of_col n g1) by (try apply pt_on; assumption). rewrite idx_pt by exact Hjn. split.
        * unfold col. rewrite Hcj, Hgk, Hck. reflexivity.
        * assert (Hcj' : cell g1 (idx n (pt n j)) = Some k) by (rewrite idx_pt by exact Hjn; exact Hcj).
          split; [apply (connected_cell n g1 _ q k W1 (pt_on n j Hjn) Hcj'); tauto|].
          rewrite (breathes_lbit n g1 _ k gk W1 (pt_on n j Hjn) Hcj' Hgk). intros [x Hx]. rewrite Hb in Hx. discriminate. }
  assert (Htaken' : forall q, on n q -> taken n (put (pos_of g) p c) p c q <-> cell g1 (idx n q) ∈ (Some <$> dead)).
  { intros q Hq. rewrite <- Htaken by exact Hq. split; apply taken_ext; [apply same_pos_sym|]; exact HP1. }
  exists g1, dead, u, g', removed, ko. split; [exact E1|]. split; [exact E2|]. split; [exact W1|]. split; [exact W'|].
  split; [exact HP1|].
  split. { destruct L1 as [[H1 H2]|[H1 H2]]; [left|right]; (split; [|congruence]); [apply Hfr, H1|apply Hfr', H1]. }
  split; [congruence|].
  assert (Hcell2u : forall q, on n q -> connected n (pos_of g2) p q <-> cell g1 (idx n q) = Some u).
  { intros q Hq. assert (Hu2 : cell g2 (idx n p) = Some u).
    { rewrite C2, Hu. destruct (decide (Some u ∈ Some <$> dead)) as [D|D]; [|reflexivity].
      apply list_In_mapsome in D. destruct (Hdead' u D) as (gx & Hx & Hcx). destruct (opp_ne c). congruence. }
    rewrite (connected_cell n g2 p q u W2 Hp Hu2). rewrite C2.
    destruct (decide (cell g1 (idx n q) ∈ Some <$> dead)) as [D|D]; [|tauto]. split; [intros [_ H]; discriminate|].
    intros H. rewrite H in D. apply list_In_mapsome in D. destruct (Hdead' u D) as (gx & Hx & Hcx). destruct (opp_ne c). congruence. }
  assert (Hbr2 : ~ breathes n (pos_of g2) p <-> is_dead gu2 = true).
  { apply (breathes_dead n g2 p u gu2 W2 Hp); [|exact Hgu2]. apply (connected_cell n g2 p p u W2 Hp); [|apply rtc_refl].
    rewrite C2, Hu. destruct (decide (Some u ∈ Some <$> dead)) as [D|D]; [|reflexivity].
    apply list_In_mapsome in D. destruct (Hdead' u D) as (gx & Hx & Hcx). destruct (opp_ne c). congruence. }
  split; [|split; [|split; [|split]]].
  - exists (pos_of g2). split.
    + intros q Hq. rewrite <- (HP1 q Hq), (pos_of_col n g2 q W2 Hq), (pos_of_col n g1 q W1 Hq), Col2, (Htaken' q Hq).
      destruct (decide (cell g1 (idx n q) ∈ Some <$> dead)); tauto.
    + intros q Hq. rewrite (pos_of_col n g' q W' Hq), (pos_of_col n g2 q W2 Hq), Col', Hbr2, (Hcell2u q Hq).
      destruct (decide (s = true /\ is_dead gu2 = true /\ cell g1 (idx n q) = Some u)); tauto.
  - intros x. rewrite (count_pos n g' x W'). rewrite <- (count_ext n _ _ x HP1), (count_pos n g1 x W1). apply R1.
  - pose proof (dslots_mono g g1 ltac:(lia) Hds). lia.
  - intros q. rewrite Hko.
    (* when something was taken the stone breathes *)
    assert (Halive : forall k, k ∈ dead -> is_dead gu2 = false).
    { intros k Hk. destruct (is_dead gu2) eqn:Ed; [|reflexivity]. exfalso.
      pose proof Hk as Hk'. apply Hdead in Hk' as (gk & Hgk & Hck & _ & j & Hj & Hcj).
      assert (Hjn : (j < n * n)%nat) by (eapply (wf_on n g1 W1); eassumption).
      assert (~ breathes n (pos_of g2) p) as HN by (apply Hbr2; reflexivity). apply HN.
      exists (pt n j). split; [apply pt_on, Hjn|]. split.
      - rewrite (pos_of_col n g2) by (try apply pt_on; assumption). rewrite idx_pt by exact Hjn. rewrite Col2, Hcj.
        destruct (decide (Some k ∈ Some <$> dead)) as [|D]; [reflexivity|]. exfalso. apply D, list_In_mapsome, Hk.
      - exists p. split; [apply rtc_refl|]. apply (adj_nb n); [exact Hp|apply pt_on, Hjn|].
        rewrite idx_pt by exact Hjn. exact Hj. }
    split.
    + destruct dead as [|d [|d2 ds]]; [discriminate| |discriminate].
      destruct (live g1 d) as [gd|] eqn:Egd; [|discriminate].
      destruct ((g_num_stones gd =? 1)%nat && negb (s && is_dead gu2)) eqn:Eb; [|discriminate].
      apply andb_true_iff in Eb as [Eb _]. apply Nat.eqb_eq in Eb. intros [= <-].
      destruct (group_points n g1 d gd W1 Egd) as (l & Hnd & HL & Hm & Hh). rewrite Eb in HL.
      destruct l as [|o [|]]; try discriminate. cbn in Hh. injection Hh as ->.
      assert (Ho : cell g1 (g_origin gd) = Some d) by (apply Hm; left).
      assert (Hon : (g_origin gd < n * n)%nat) by (eapply (wf_on n g1 W1); eassumption).
      change (g_origin gd / n, g_origin gd mod n)%nat with (pt n (g_origin gd)).
      split; [apply pt_on, Hon|]. split.
      * apply Htaken'; [apply pt_on, Hon|]. rewrite idx_pt by exact Hon. rewrite Ho. apply list_In_mapsome. left.
      * intros q' Hq' Ht. apply Htaken' in Ht; [|exact Hq']. apply elem_of_list_fmap in Ht as (k & Hk1 & Hk2).
        apply elem_of_list_singleton in Hk2. subst k. apply Hm, elem_of_list_singleton in Hk1.
        rewrite <- Hk1. symmetry. apply pt_idx, Hq'.
    + intros (Hq & Ht & Huniq). apply Htaken' in Ht; [|exact Hq]. apply elem_of_list_fmap in Ht as (d & Hd1 & Hd2).
      assert (Honly : forall k, k ∈ dead -> k = d).
      { intros k Hk. pose proof Hk as Hk'. apply Hdead in Hk' as (gk & Hgk & Hck & _ & j & Hj & Hcj).
        assert (Hjn : (j < n * n)%nat) by (eapply (wf_on n g1 W1); eassumption).
        assert (pt n j = q).
        { apply Huniq; [apply pt_on, Hjn|]. apply Htaken'; [apply pt_on, Hjn|]. rewrite idx_pt by exact Hjn.
          rewrite Hcj. apply list_In_mapsome, Hk. }
        subst q. rewrite idx_pt in Hd1 by exact Hjn. congruence. }
      assert (Hdd : dead = [d]).
      { destruct dead as [|a [|b ds]].
        - apply elem_of_nil in Hd2. destruct Hd2.
        - f_equal. apply Honly. left.
        - exfalso. apply NoDup_cons in Nd as [Ha _]. apply Ha. rewrite (Honly a), (Honly b); [left|right; left|left]. }
      destruct (Hdead' d Hd2) as (gd & Hgd & _). rewrite (Halive d Hd2), andb_false_r, Hdd, Hgd.
      destruct (group_points n g1 d gd W1 Hgd) as (l & Hnd & HL & Hm & Hh).
      assert (Hl : forall j, j ∈ l -> j = idx n q).
      { intros j Hj. apply Hm in Hj. assert (Hjn : (j < n * n)%nat) by (eapply (wf_on n g1 W1); eassumption).
        rewrite <- (Huniq (pt n j)); [symmetry; apply idx_pt, Hjn|apply pt_on, Hjn|].
        apply Htaken'; [apply pt_on, Hjn|]. rewrite idx_pt by exact Hjn. rewrite Hj. apply list_In_mapsome, Hd2. }
      assert (Hl1 : l = [idx n q]).
      { destruct l as [|a [|b l']]; [discriminate| |].
        - f_equal. apply Hl. left.
        - exfalso. apply NoDup_cons in Hnd as [Ha _]. apply Ha. rewrite (Hl a), (Hl b); [left|right; left|left]. }
      rewrite Hl1 in HL, Hh. cbn in HL, Hh. injection Hh as Hh. rewrite <- HL, <- Hh.
      change (idx n q / n, idx n q mod n)%nat with (pt n (idx n q)).
      rewrite pt_idx by exact Hq. reflexivity.
  - split.
    + intros -> q Hq Ht. apply Htaken' in Ht; [|exact Hq]. apply elem_of_nil in Ht. exact Ht.
    + intros H. destruct dead as [|d ds]; [reflexivity|]. exfalso.
      assert (Hd : d ∈ d :: ds) by left. pose proof Hd as Hk'. apply Hdead in Hk' as (gk & Hgk & Hck & _ & j & Hj & Hcj).
      assert (Hjn : (j < n * n)%nat) by (eapply (wf_on n g1 W1); eassumption).
      apply (H (pt n j)); [apply pt_on, Hjn|]. apply Htaken'; [apply pt_on, Hjn|]. rewrite idx_pt by exact Hjn.
      rewrite Hcj. apply list_In_mapsome, Hd.
Qed.
