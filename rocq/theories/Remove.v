(** Removing a group keeps the invariant and frees exactly its points. *)
From stdpp Require Import relations.
From Verif Require Import Goban BitsetFacts CoordFacts Struct Push Inv.
From Coq Require Import Lia.

Lemma connected_gen (b : list (option nat)) (f : nat -> option nat) nbs acc :
  (forall j, j ∈ nbs -> vget b j = Ok (f j)) ->
  NoDup acc -> (length acc + length nbs <= 4)%nat ->
  exists acc',
    foldM (fun acc j =>
           let! cell := vget b j in
           match cell with
           | Some k => if mem k acc then Ok acc else av_push 4 acc k
           | None => Ok acc
           end) nbs acc = Ok acc' /\ NoDup acc' /\
    (forall k, k ∈ acc' <-> k ∈ acc \/ exists j, j ∈ nbs /\ f j = Some k).
Proof.
  intros Hf. revert acc. induction nbs as [|j nbs IH]; intros acc Hnd L.
  - exists acc. split; [reflexivity|]. split; [exact Hnd|]. intros k. split; [tauto|].
    intros [H|(j & H & _)]; [exact H|]. apply elem_of_nil in H. destruct H.
  - cbn [foldM length] in *. rewrite (Hf j) by left. cbn [bind].
    assert (Hf' : forall j0, j0 ∈ nbs -> vget b j0 = Ok (f j0)) by (intros; apply Hf; right; assumption).
    destruct (f j) as [k|] eqn:Ej.
    + destruct (mem k acc) eqn:Em.
      * cbn [bind]. destruct (IH Hf' acc Hnd) as (a & E & N & H); [lia|]. exists a. split; [exact E|]. split; [exact N|].
        intros k0. rewrite H. apply mem_spec in Em. split.
        -- intros [H0|(j0 & H0 & H1)]; [tauto|]. right. exists j0. rewrite elem_of_cons. tauto.
        -- intros [H0|(j0 & H0 & H1)]; [tauto|]. apply elem_of_cons in H0 as [->|H0]; [|eauto].
           left. congruence.
      * assert (Hk : k ∉ acc) by (intros H; apply mem_spec in H; congruence).
        rewrite (av_push_ok 4 acc k) by lia. cbn [bind].
        destruct (IH Hf' (acc ++ [k]) (NoDup_snoc _ _ Hnd Hk)) as (a & E & N & H); [rewrite app_length; cbn; lia|].
        exists a. split; [exact E|]. split; [exact N|].
        intros k0. rewrite H, elem_of_app, elem_of_list_singleton. split.
        -- intros [[H0| ->]|(j0 & H0 & H1)]; [tauto| |]; right; [exists j|exists j0]; rewrite elem_of_cons; tauto.
        -- intros [H0|(j0 & H0 & H1)]; [tauto|]. apply elem_of_cons in H0 as [->|H0]; [|eauto].
           left. right. congruence.
    + cbn [bind]. destruct (IH Hf' acc Hnd) as (a & E & N & H); [lia|]. exists a. split; [exact E|]. split; [exact N|].
      intros k0. rewrite H. split.
      * intros [H0|(j0 & H0 & H1)]; [tauto|]. right. exists j0. rewrite elem_of_cons. tauto.
      * intros [H0|(j0 & H0 & H1)]; [tauto|]. apply elem_of_cons in H0 as [->|H0]; [|eauto]. congruence.
Qed.

Lemma connected_spec dbg n g i :
  (1 <= n <= 19)%nat -> gsize g = (n, n) -> length (board g) = 361%nat -> (i < n * n)%nat ->
  exists l, get_connected_groups_idx dbg g i = Ok l /\ NoDup l /\
    forall k, k ∈ l <-> exists j, j ∈ nb n i /\ cell g j = Some k.
Proof.
  intros Hn Hs Hb Hi. unfold get_connected_groups_idx. rewrite Hs, neighbors_idx_sq by assumption. cbn [bind].
  pose proof (sq_le n Hn). pose proof (nb_length n i).
  destruct (connected_gen (board g) (cell g) (nb n i) []) as (l & E & N & H1).
  - intros j Hj. apply vget_board. apply nb_bound in Hj; lia.
  - apply NoDup_nil_2.
  - apply (nb_length n i).
  - exists l. split; [exact E|]. split; [exact N|]. intros k. rewrite H1. split; [|tauto].
    intros [H2|H2]; [apply elem_of_nil in H2; destruct H2|exact H2].
Qed.

Lemma add_liberty_ok dbg grp i :
  bits_ok (g_liberties grp) -> (i < 368)%nat -> lbit (g_liberties grp) i = false ->
  exists grp', add_liberty dbg grp i = Ok grp' /\ same_shape grp grp' /\ bits_ok (g_liberties grp') /\
    forall j, lbit (g_liberties grp') j = if (j =? i)%nat then true else lbit (g_liberties grp) j.
Proof.
  intros Hbo Hi Hbit. unfold add_liberty. rewrite lib_get_spec by assumption. rewrite Hbit.
  replace (debug_assert dbg (let! b := Ok false in Ok (negb b))) with (Ok tt : res unit) by (destruct dbg; reflexivity).
  cbn [bind]. unfold add_liberty_unchecked.
  destruct (lib_set_spec true (g_liberties grp) i Hbo Hi) as (bits & Es & Hbo' & Hb).
  rewrite Es. cbn [bind]. exists (with_liberties grp bits). split; [reflexivity|].
  split; [repeat split|]. split; [exact Hbo'|exact Hb].
Qed.

(** giving one liberty back to several groups *)
Lemma add_all_gen dbg p (ks : list nat) cs :
  (p < 368)%nat -> NoDup ks ->
  (forall k, k ∈ ks -> exists grp, mjoin (cs !! k) = Some grp /\ bits_ok (g_liberties grp) /\
                                   lbit (g_liberties grp) p = false) ->
  exists cs',
    foldM (fun cs n => let! grp := chain_at cs n in
                       let! grp' := add_liberty dbg grp p in
                       chain_put cs n grp') ks cs = Ok cs' /\
    length cs' = length cs /\
    (forall k, k ∉ ks -> mjoin (cs' !! k) = mjoin (cs !! k)) /\
    (forall k grp, k ∈ ks -> mjoin (cs !! k) = Some grp -> exists grp',
        mjoin (cs' !! k) = Some grp' /\ same_shape grp grp' /\ bits_ok (g_liberties grp') /\
        forall j, lbit (g_liberties grp') j = if (j =? p)%nat then true else lbit (g_liberties grp) j).
Proof.
  intros Hp. revert cs. induction ks as [|k ks IH]; intros cs Hnd Hks.
  - exists cs. cbn. repeat split. intros k grp H. apply elem_of_nil in H. destruct H.
  - apply NoDup_cons in Hnd as [Hk Hnd]. cbn [foldM].
    destruct (Hks k) as (grp & Hg & Hbo & Hb); [left|].
    set (g0 := mkGoban cs [] [] (0, 0)%nat 0%N).
    assert (Hlive : live g0 k = Some grp) by exact Hg.
    pose proof (chain_at_live g0 k grp Hlive) as Ea. cbn in Ea. rewrite Ea. cbn [bind].
    destruct (add_liberty_ok dbg grp p Hbo Hp Hb) as (grp' & E' & Sh & Hbo' & Hb'). rewrite E'. cbn [bind].
    pose proof (chain_put_live g0 k grp grp' Hlive) as Ep. cbn in Ep. rewrite Ep. cbn [bind].
    assert (Hl : forall k', mjoin (<[k := Some grp']> cs !! k') = if decide (k' = k) then Some grp' else mjoin (cs !! k')).
    { intros k'. apply (live_put g0 k (Some grp')); [apply live_lt in Hlive; exact Hlive|reflexivity]. }
    destruct (IH (<[k := Some grp']> cs) Hnd) as (cs' & E & L & A & B).
    { intros k0 Hk0. rewrite Hl. destruct (decide (k0 = k)) as [->|]; [contradiction|]. apply Hks. right. exact Hk0. }
    exists cs'. split; [exact E|]. split; [rewrite L; apply insert_length|]. split.
    + intros k0 Hk0. apply not_elem_of_cons in Hk0 as [H1 H2]. rewrite (A k0 H2), Hl.
      destruct (decide (k0 = k)); [contradiction|reflexivity].
    + intros k0 gr Hk0 Hg0. destruct (decide (k0 = k)) as [->|Hne].
      * rewrite (A k Hk), Hl. destruct (decide (k = k)); [|contradiction]. exists grp'.
        assert (gr = grp) by congruence. subst gr. tauto.
      * apply elem_of_cons in Hk0 as [|Hk0]; [contradiction|]. apply (B k0 gr Hk0). rewrite Hl.
        destruct (decide (k0 = k)); [contradiction|exact Hg0].
Qed.

(** the board while the stones of group [k] are being taken off: those of [done]
    are gone, the others are still there *)
Record partial_removal (n : nat) (g : goban) (k : nat) (done : list nat) (g' : goban) : Prop := mkPR {
  pr_board : length (board g') = 361%nat;
  pr_next : next_stone g' = next_stone g;
  pr_size : gsize g' = gsize g;
  pr_len : length (chains g') = length (chains g);
  pr_cell : forall j, cell g' j = if decide (j ∈ done) then None else cell g j;
  pr_k : live g' k = live g k;
  pr_none : forall k', live g k' = None -> live g' k' = None;
  pr_live : forall k' grp, k' <> k -> live g k' = Some grp -> exists grp',
      live g' k' = Some grp' /\ same_shape grp grp' /\ bits_ok (g_liberties grp') /\
      forall j, lbit (g_liberties grp') j = true <->
                lbit (g_liberties grp) j = true \/
                (j ∈ done /\ exists x, cell g x = Some k' /\ j ∈ nb n x);
  pr_hash : zobrist_hash g' = hash_of (fun j => if decide (j ∈ done) then None else col g j)
}.

Lemma remove_loop dbg n g k chain l :
  wf n g -> live g k = Some chain ->
  forall done g1, NoDup (done ++ l) -> (forall i, i ∈ done ++ l -> cell g i = Some k) ->
  partial_removal n g k done g1 ->
  exists g2,
    foldM (fun g p =>
             let! nbs := get_connected_groups_idx dbg g p in
             let nbs := List.filter (fun x => negb (x =? k)%nat) nbs in
             let! cs := foldM (fun cs n =>
                                 let! grp := chain_at cs n in
                                 let! grp' := add_liberty dbg grp p in
                                 chain_put cs n grp') nbs (chains g) in
             let! z := index_zobrist p (g_color chain) in
             let! b := vset (board g) p None in
             Ok (mkGoban cs b (next_stone g) (gsize g) (N.lxor (zobrist_hash g) z)))
          l g1 = Ok g2 /\ partial_removal n g k (done ++ l) g2.
Proof.
  intros W Hk. pose proof (wf_n n g W) as Hn. pose proof (wf_0 n g W) as W0. pose proof (sq_le n Hn) as Hsq.
  induction l as [|p l IH]; intros done g1 Hnd Hin P.
  - exists g1. rewrite app_nil_r. split; [reflexivity|exact P].
  - cbn [foldM].
    assert (Hp : cell g p = Some k) by (apply Hin, elem_of_app; right; left).
    assert (Hpn : (p < n * n)%nat) by (eapply wf_on; eassumption).
    assert (Hpd : p ∉ done).
    { apply NoDup_app in Hnd as (_ & Hd & _). intros H. apply (Hd p H). left. }
    destruct (connected_spec dbg n g1 p Hn) as (nbs & En & Nn & Hn').
    { rewrite (pr_size _ _ _ _ _ P). apply (wf_size n g W). }
    { apply (pr_board _ _ _ _ _ P). }
    { exact Hpn. }
    rewrite En. cbn [bind].
    set (ks := List.filter (fun x => negb (x =? k)%nat) nbs).
    assert (Hks : forall k', k' ∈ ks <-> k' <> k /\ exists j, j ∈ nb n p /\ cell g j = Some k').
    { intros k'. unfold ks. rewrite elem_of_list_In, List.filter_In, <- elem_of_list_In, Hn', negb_true_iff, Nat.eqb_neq.
      split.
      - intros [(j & H1 & H2) H3]. split; [exact H3|]. exists j. split; [exact H1|].
        rewrite (pr_cell _ _ _ _ _ P) in H2. destruct (decide (j ∈ done)); [discriminate|exact H2].
      - intros [H3 (j & H1 & H2)]. split; [|exact H3]. exists j. split; [exact H1|].
        rewrite (pr_cell _ _ _ _ _ P). destruct (decide (j ∈ done)) as [D|]; [|exact H2].
        exfalso. apply H3. assert (cell g j = Some k) by (apply Hin, elem_of_app; left; exact D). congruence. }
    assert (Nks : NoDup ks).
    { unfold ks. apply NoDup_ListNoDup, List.NoDup_filter, NoDup_ListNoDup, Nn. }
    destruct (add_all_gen dbg p ks (chains g1)) as (cs' & Ecs & Lcs & Vn & Vy); [lia|exact Nks| |].
    { intros k' Hk'. apply Hks in Hk' as [H1 (j & H2 & H3)].
      destruct (wf0_cell g W0 j k' H3) as [gk Hg].
      destruct (pr_live _ _ _ _ _ P k' gk H1 Hg) as (gk' & Hg' & Hsh & Hbo & Hb).
      exists gk'. split; [exact Hg'|]. split; [exact Hbo|].
      destruct (lbit (g_liberties gk') p) eqn:E; [|reflexivity]. exfalso.
      apply Hb in E as [E|[E _]]; [|contradiction].
      apply (wf_lib n g W k' gk p Hg) in E as [E _]. congruence. }
    rewrite Ecs. cbn [bind]. rewrite index_zobrist_ok by lia. cbn [bind].
    rewrite vset_ok by (rewrite (pr_board _ _ _ _ _ P); lia). cbn [bind].
    set (g2 := mkGoban cs' (<[p:=None]> (board g1)) (next_stone g1) (gsize g1)
                 (N.lxor (zobrist_hash g1) (zval p (g_color chain)))).
    assert (P2 : partial_removal n g k (done ++ [p]) g2).
    { constructor.
      - cbn. rewrite insert_length. apply (pr_board _ _ _ _ _ P).
      - apply (pr_next _ _ _ _ _ P).
      - apply (pr_size _ _ _ _ _ P).
      - cbn. rewrite Lcs. apply (pr_len _ _ _ _ _ P).
      - intros j. unfold cell at 1. cbn [board g2]. destruct (decide (j = p)) as [->|Hjp].
        + rewrite list_lookup_insert by (rewrite (pr_board _ _ _ _ _ P); lia). cbn.
          destruct (decide (p ∈ done ++ [p])) as [|D]; [reflexivity|]. exfalso. apply D, elem_of_app. right. left.
        + rewrite list_lookup_insert_ne by congruence. fold (cell g1 j). rewrite (pr_cell _ _ _ _ _ P).
          destruct (decide (j ∈ done)) as [D|D]; destruct (decide (j ∈ done ++ [p])) as [D'|D']; try reflexivity.
          * exfalso. apply D', elem_of_app. tauto.
          * exfalso. apply elem_of_app in D' as [D'|D']; [contradiction|]. apply elem_of_list_singleton in D'. contradiction.
      - change (live g2 k) with (mjoin (cs' !! k)). rewrite Vn; [apply (pr_k _ _ _ _ _ P)|].
        intros H. apply Hks in H. tauto.
      - intros k' Hk'. change (live g2 k') with (mjoin (cs' !! k')). rewrite Vn; [apply (pr_none _ _ _ _ _ P), Hk'|].
        intros H. apply Hks in H as [_ (j & _ & H)]. destruct (wf0_cell g W0 j k' H) as [x Hx]. congruence.
      - intros k' gk Hne Hg. destruct (pr_live _ _ _ _ _ P k' gk Hne Hg) as (gk1 & Hg1 & Hsh1 & Hbo1 & Hb1).
        change (live g2 k') with (mjoin (cs' !! k')).
        destruct (decide (k' ∈ ks)) as [D|D].
        + destruct (Vy k' gk1 D Hg1) as (gk2 & Hg2 & Hsh2 & Hbo2 & Hb2). exists gk2. split; [exact Hg2|].
          split. { destruct Hsh1 as (?&?&?&?), Hsh2 as (?&?&?&?). repeat split; congruence. }
          split; [exact Hbo2|]. intros j. rewrite Hb2, elem_of_app, elem_of_list_singleton.
          destruct (Nat.eqb_spec j p) as [->|Hjp].
          * split; [|reflexivity]. intros _. right. split; [tauto|].
            apply Hks in D as [_ (x & Hx1 & Hx2)]. exists x. split; [exact Hx2|]. apply nb_sym; [lia|lia|exact Hx1].
          * rewrite Hb1. tauto.
        + rewrite Vn by exact D. exists gk1. split; [exact Hg1|]. split; [exact Hsh1|]. split; [exact Hbo1|].
          intros j. rewrite Hb1, elem_of_app, elem_of_list_singleton. split; [tauto|].
          intros [H|[[H|H] (x & Hx1 & Hx2)]]; [tauto|right; eauto|]. subst j. exfalso. apply D, Hks. split; [exact Hne|].
          exists x. split; [|exact Hx1]. apply nb_sym; [lia| |exact Hx2]. eapply wf_on; eassumption.
      - cbn [zobrist_hash g2]. rewrite (pr_hash _ _ _ _ _ P). symmetry. apply hash_del.
        + lia.
        + destruct (decide (p ∈ done)); [contradiction|]. unfold col. rewrite Hp, Hk. reflexivity.
        + destruct (decide (p ∈ done ++ [p])) as [|D]; [reflexivity|]. exfalso. apply D, elem_of_app. right. left.
        + intros j Hjp. destruct (decide (j ∈ done)) as [D|D]; destruct (decide (j ∈ done ++ [p])) as [D'|D']; try reflexivity.
          * exfalso. apply D', elem_of_app. tauto.
          * exfalso. apply elem_of_app in D' as [D'|D']; [contradiction|]. apply elem_of_list_singleton in D'. contradiction. }
    destruct (IH (done ++ [p]) g2) as (g3 & E3 & P3).
    + rewrite <- app_assoc. exact Hnd.
    + rewrite <- app_assoc. exact Hin.
    + exact P2.
    + exists g3. rewrite <- app_assoc in P3. split; [exact E3|exact P3].
Qed.

Theorem remove_chain_spec dbg n g k chain :
  wf n g -> live g k = Some chain ->
  exists g',
    remove_chain dbg g k = Ok g' /\ wf n g' /\
    length (chains g') = length (chains g) /\
    (forall j, cell g' j = if decide (cell g j = Some k) then None else cell g j) /\
    (forall j, col g' j = if decide (cell g j = Some k) then None else col g j) /\
    live g' k = None /\
    (forall k', live g k' = None -> live g' k' = None) /\
    (forall k' grp, k' <> k -> live g k' = Some grp -> exists grp',
        live g' k' = Some grp' /\ same_shape grp grp').
Proof.
  intros W Hk. pose proof (wf_n n g W) as Hn. pose proof (wf_0 n g W) as W0.
  destruct (wf0_chain g W0 k chain Hk) as [Hbo (l & R & Hm)].
  unfold remove_chain. rewrite (chain_at_live _ _ _ Hk). cbn [bind].
  rewrite (group_for_iter _ _ _ _ _ _ (wf0_iter dbg g k chain l W0 R Hm)).
  assert (P0 : partial_removal n g k [] g).
  { constructor; try reflexivity.
    - apply (wf0_board g W0).
    - intros k' H. exact H.
    - intros k' gk _ Hg. exists gk. split; [exact Hg|]. split; [repeat split|].
      split; [apply (wf0_chain g W0 k' gk Hg)|]. intros j. rewrite elem_of_nil. tauto.
    - rewrite (wf_hash n g W). reflexivity. }
  destruct (remove_loop dbg n g k chain l W Hk [] g) as (g1 & E1 & P).
  { exact (ring_nodup _ _ _ R). }
  { intros i Hi. apply Hm, Hi. }
  { exact P0. }
  cbn [app] in P.
  match goal with |- context [foldM ?F l g] => replace (foldM F l g) with (Ok g1) by (symmetry; exact E1) end.
  cbn [bind].
  assert (Hklt : (k < length (chains g1))%nat) by (rewrite (pr_len _ _ _ _ _ P); eapply live_lt; exact Hk).
  unfold chains_remove. rewrite vset_ok by exact Hklt. cbn [bind].
  set (g2 := with_chains g1 (<[k := None]> (chains g1))).
  assert (Hlive2 : forall k', live g2 k' = if decide (k' = k) then None else live g1 k').
  { intros k'. unfold live at 1. apply live_put; [exact Hklt|reflexivity]. }
  assert (Hcell2 : forall j, cell g2 j = if decide (cell g j = Some k) then None else cell g j).
  { intros j. change (cell g2 j) with (cell g1 j). rewrite (pr_cell _ _ _ _ _ P).
    destruct (decide (j ∈ l)) as [D|D]; destruct (decide (cell g j = Some k)) as [D'|D']; try reflexivity;
      rewrite Hm in D; contradiction. }
  assert (Hcellk : forall j k', cell g2 j = Some k' <-> k' <> k /\ cell g j = Some k').
  { intros j k'. rewrite Hcell2. destruct (decide _); intuition congruence. }
  assert (Hlv : forall k' grp, k' <> k -> live g k' = Some grp -> exists grp',
        live g2 k' = Some grp' /\ same_shape grp grp' /\ bits_ok (g_liberties grp') /\
        forall j, lbit (g_liberties grp') j = true <->
                lbit (g_liberties grp) j = true \/ (j ∈ l /\ exists x, cell g x = Some k' /\ j ∈ nb n x)).
  { intros k' gk Hne Hg. rewrite Hlive2. destruct (decide (k' = k)); [contradiction|].
    apply (pr_live _ _ _ _ _ P); assumption. }
  assert (Hlv_inv : forall k' grp', live g2 k' = Some grp' -> k' <> k /\ exists grp, live g k' = Some grp).
  { intros k' gk' H. rewrite Hlive2 in H. destruct (decide (k' = k)); [discriminate|]. split; [assumption|].
    destruct (live g k') as [gk|] eqn:E; [eauto|]. rewrite (pr_none _ _ _ _ _ P k' E) in H. discriminate. }
  assert (Hcol2 : forall j, col g2 j = if decide (cell g j = Some k) then None else col g j).
  { intros j. unfold col. rewrite Hcell2. destruct (decide (cell g j = Some k)) as [D|D]; [reflexivity|].
    destruct (cell g j) as [k'|] eqn:Ej; [|reflexivity].
    destruct (wf0_cell g W0 j k' Ej) as [gk Hg].
    destruct (Hlv k' gk) as (gk' & Hg' & (Hsh & _) & _); [congruence|exact Hg|].
    rewrite Hg, Hg'. congruence. }
  exists g2. split; [reflexivity|].
  assert (Wf2 : wf n g2).
  { constructor.
    - constructor.
      + apply (pr_board _ _ _ _ _ P).
      + cbn. rewrite (pr_next _ _ _ _ _ P). apply (wf0_next g W0).
      + cbn. rewrite insert_length, (pr_len _ _ _ _ _ P). apply (wf0_len g W0).
      + intros j k' Hj. apply Hcellk in Hj as [Hne Hj]. destruct (wf0_cell g W0 j k' Hj) as [gk Hg].
        destruct (Hlv k' gk Hne Hg) as (gk' & Hg' & _). eauto.
      + intros k' gk' Hg'. destruct (Hlv_inv k' gk' Hg') as [Hne [gk Hg]].
        destruct (Hlv k' gk Hne Hg) as (gk2 & Hg2 & (S1 & S2 & S3 & S4) & Hbo2 & _). assert (gk2 = gk') by congruence. subst gk2.
        split; [exact Hbo2|]. destruct (wf0_chain g W0 k' gk Hg) as [_ (l' & R' & Hm')]. exists l'. split.
        * cbn. rewrite (pr_next _ _ _ _ _ P). destruct R'. constructor; congruence.
        * intros i. rewrite Hm', Hcellk. intuition congruence.
    - exact Hn.
    - cbn. rewrite (pr_size _ _ _ _ _ P). apply (wf_size n g W).
    - intros i k' H. apply Hcellk in H as [_ H]. eapply wf_on; eassumption.
    - intros k' gk' j Hg'. destruct (Hlv_inv k' gk' Hg') as [Hne [gk Hg]].
      destruct (Hlv k' gk Hne Hg) as (gk2 & Hg2 & _ & _ & Hb). assert (gk2 = gk') by congruence. subst gk2.
      rewrite Hb, (wf_lib n g W k' gk j Hg), Hcell2.
      assert (Hx : (exists x, cell g2 x = Some k' /\ j ∈ nb n x) <-> (exists x, cell g x = Some k' /\ j ∈ nb n x)).
      { split; intros (x & H1 & H2); exists x; [apply Hcellk in H1; tauto|]. split; [apply Hcellk; tauto|exact H2]. }
      rewrite Hx, Hm. destruct (decide (cell g j = Some k)); intuition congruence.
    - intros i j k1 k2 Hij H1 H2 Hc. apply Hcellk in H1 as [N1 H1]. apply Hcellk in H2 as [N2 H2].
      apply (wf_max n g W i j); try assumption. rewrite !Hcol2 in Hc.
      destruct (decide (cell g i = Some k)); [congruence|]. destruct (decide (cell g j = Some k)); [congruence|exact Hc].
    - intros i j k' H1 H2. apply Hcellk in H1 as [N1 H1]. apply Hcellk in H2 as [_ H2].
      pose proof (wf_conn n g W i j k' H1 H2) as H. clear -H N1 Hcellk. induction H as [|a b d (A1 & A2 & A3) _ IH]; [apply rtc_refl|].
      eapply rtc_l; [|exact IH]. split; [exact A1|]. split; apply Hcellk; tauto.
    - cbn [zobrist_hash g2 with_chains]. rewrite (pr_hash _ _ _ _ _ P). apply hash_ext. intros j _. rewrite Hcol2.
      destruct (decide (j ∈ l)) as [D|D]; destruct (decide (cell g j = Some k)) as [D'|D']; try reflexivity;
        rewrite Hm in D; contradiction. }
  split; [exact Wf2|]. split; [cbn; rewrite insert_length; apply (pr_len _ _ _ _ _ P)|].
  split; [exact Hcell2|]. split; [exact Hcol2|].
  split; [rewrite Hlive2; destruct (decide (k = k)); [reflexivity|contradiction]|]. split.
  - intros k' H. rewrite Hlive2. destruct (decide (k' = k)); [reflexivity|]. apply (pr_none _ _ _ _ _ P), H.
  - intros k' gk Hne Hg. destruct (Hlv k' gk Hne Hg) as (gk' & H1 & H2 & _). eauto.
Qed.
