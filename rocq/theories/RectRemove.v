(** Removing a group, on boards whose width divides their height. *)
From stdpp Require Import relations.
From Verif Require Import Goban BitsetFacts CoordFacts Struct Push Inv Remove RectCoord RectInv.
From Coq Require Import Lia.

Lemma rconnected_spec dbg n g i :
  fits n -> gsize g = n -> length (board g) = 361%nat -> vi n i ->
  exists l, get_connected_groups_idx dbg g i = Ok l /\ NoDup l /\
    forall k, k ∈ l <-> exists j, j ∈ rnb n i /\ cell g j = Some k.
Proof.
  intros Hn Hs Hb Hi. unfold get_connected_groups_idx. rewrite Hs, neighbors_idx_rect by assumption. cbn [bind].
 pose proof (rnb_length n i).
  destruct (connected_gen (board g) (cell g) (rnb n i) []) as (l & E & N & H1).
  - intros j Hj. apply vget_board. rewrite Hb. eapply vi_361; [exact Hn|]. eapply rnb_vi; eassumption.
  - apply NoDup_nil_2.
  - apply (rnb_length n i).
  - exists l. split; [exact E|]. split; [exact N|]. intros k. rewrite H1. split; [|tauto].
    intros [H2|H2]; [apply elem_of_nil in H2; destruct H2|exact H2].
Qed.

(** the board while the stones of group [k] are being taken off: those of [done]
    are gone, the others are still there *)
Record rpartial_removal (n : size_t) (g : goban) (k : nat) (done : list nat) (g' : goban) : Prop := rmkPR {
  rpr_board : length (board g') = 361%nat;
  rpr_next : next_stone g' = next_stone g;
  rpr_size : gsize g' = gsize g;
  rpr_len : length (chains g') = length (chains g);
  rpr_cell : forall j, cell g' j = if decide (j ∈ done) then None else cell g j;
  rpr_k : live g' k = live g k;
  rpr_none : forall k', live g k' = None -> live g' k' = None;
  rpr_live : forall k' grp, k' <> k -> live g k' = Some grp -> exists grp',
      live g' k' = Some grp' /\ same_shape grp grp' /\ bits_ok (g_liberties grp') /\
      forall j, lbit (g_liberties grp') j = true <->
                lbit (g_liberties grp) j = true \/
                (j ∈ done /\ exists x, cell g x = Some k' /\ j ∈ rnb n x);
  rpr_hash : zobrist_hash g' = hash_of (fun j => if decide (j ∈ done) then None else col g j)
}.

Lemma rremove_loop dbg n g k chain l :
  rwf n g -> live g k = Some chain ->
  forall done g1, NoDup (done ++ l) -> (forall i, i ∈ done ++ l -> cell g i = Some k) ->
  rpartial_removal n g k done g1 ->
  exists g2,
    foldM (fun g p =>
             let! nbs := get_connected_groups_idx dbg g p in
             let nbs := List.filter (fun x => negb (x =? k)%nat) nbs in
             let! cs := foldM (fun cs n =>
                                 let! grp := chain_at cs n in
                                 let! grp' := add_liberty dbg grp p in
                                 chain_put cs n grp') nbs (chains g) in
             let! z := index_zobrist p (g_color chain) in
             let! b := vset (board g) p None in
             Ok (mkGoban cs b (next_stone g) (gsize g) (N.lxor (zobrist_hash g) z)))
          l g1 = Ok g2 /\ rpartial_removal n g k (done ++ l) g2.
Proof.
  intros W Hk. pose proof (rwf_n n g W) as Hn. pose proof (rwf_0 n g W) as W0.
  induction l as [|p l IH]; intros done g1 Hnd Hin P.
  - exists g1. rewrite app_nil_r. split; [reflexivity|exact P].
  - cbn [foldM].
    assert (Hp : cell g p = Some k) by (apply Hin, elem_of_app; right; left).
    assert (Hpn : vi n p) by (eapply rwf_on; eassumption). pose proof (vi_361 n p Hn Hpn) as Hp361.
    assert (Hpd : p ∉ done).
    { apply NoDup_app in Hnd as (_ & Hd & _). intros H. apply (Hd p H). left. }
    destruct (rconnected_spec dbg n g1 p Hn) as (nbs & En & Nn & Hn').
    { rewrite (rpr_size _ _ _ _ _ P). apply (rwf_size n g W). }
    { apply (rpr_board _ _ _ _ _ P). }
    { exact Hpn. }
    rewrite En. cbn [bind].
    set (ks := List.filter (fun x => negb (x =? k)%nat) nbs).
    assert (Hks : forall k', k' ∈ ks <-> k' <> k /\ exists j, j ∈ rnb n p /\ cell g j = Some k').
    { intros k'. unfold ks. rewrite elem_of_list_In, List.filter_In, <- elem_of_list_In, Hn', negb_true_iff, Nat.eqb_neq.
      split.
      - intros [(j & H1 & H2) H3]. split; [exact H3|]. exists j. split; [exact H1|].
        rewrite (rpr_cell _ _ _ _ _ P) in H2. destruct (decide (j ∈ done)); [discriminate|exact H2].
      - intros [H3 (j & H1 & H2)]. split; [|exact H3]. exists j. split; [exact H1|].
        rewrite (rpr_cell _ _ _ _ _ P). destruct (decide (j ∈ done)) as [D|]; [|exact H2].
        exfalso. apply H3. assert (cell g j = Some k) by (apply Hin, elem_of_app; left; exact D). congruence. }
    assert (Nks : NoDup ks).
    { unfold ks. apply NoDup_ListNoDup, List.NoDup_filter, NoDup_ListNoDup, Nn. }
    destruct (add_all_gen dbg p ks (chains g1)) as (cs' & Ecs & Lcs & Vn & Vy); [lia|exact Nks| |].
    { intros k' Hk'. apply Hks in Hk' as [H1 (j & H2 & H3)].
      destruct (wf0_cell g W0 j k' H3) as [gk Hg].
      destruct (rpr_live _ _ _ _ _ P k' gk H1 Hg) as (gk' & Hg' & Hsh & Hbo & Hb).
      exists gk'. split; [exact Hg'|]. split; [exact Hbo|].
      destruct (lbit (g_liberties gk') p) eqn:E; [|reflexivity]. exfalso.
      apply Hb in E as [E|[E _]]; [|contradiction].
      apply (rwf_lib n g W k' gk p Hg) in E as [E _]. congruence. }
    rewrite Ecs. cbn [bind]. rewrite index_zobrist_ok by lia. cbn [bind].
    rewrite vset_ok by (rewrite (rpr_board _ _ _ _ _ P); lia). cbn [bind].
    set (g2 := mkGoban cs' (<[p:=None]> (board g1)) (next_stone g1) (gsize g1)
                 (N.lxor (zobrist_hash g1) (zval p (g_color chain)))).
    assert (P2 : rpartial_removal n g k (done ++ [p]) g2).
    { constructor.
      - cbn. rewrite insert_length. apply (rpr_board _ _ _ _ _ P).
      - apply (rpr_next _ _ _ _ _ P).
      - apply (rpr_size _ _ _ _ _ P).
      - cbn. rewrite Lcs. apply (rpr_len _ _ _ _ _ P).
      - intros j. unfold cell at 1. cbn [board g2]. destruct (decide (j = p)) as [->|Hjp].
        + rewrite list_lookup_insert by (rewrite (rpr_board _ _ _ _ _ P); lia). cbn.
          destruct (decide (p ∈ done ++ [p])) as [|D]; [reflexivity|]. exfalso. apply D, elem_of_app. right. left.
        + rewrite list_lookup_insert_ne by congruence. fold (cell g1 j). rewrite (rpr_cell _ _ _ _ _ P).
          destruct (decide (j ∈ done)) as [D|D]; destruct (decide (j ∈ done ++ [p])) as [D'|D']; try reflexivity.
          * exfalso. apply D', elem_of_app. tauto.
          * exfalso. apply elem_of_app in D' as [D'|D']; [contradiction|]. apply elem_of_list_singleton in D'. contradiction.
      - change (live g2 k) with (mjoin (cs' !! k)). rewrite Vn; [apply (rpr_k _ _ _ _ _ P)|].
        intros H. apply Hks in H. tauto.
      - intros k' Hk'. change (live g2 k') with (mjoin (cs' !! k')). rewrite Vn; [apply (rpr_none _ _ _ _ _ P), Hk'|].
        intros H. apply Hks in H as [_ (j & _ & H)]. destruct (wf0_cell g W0 j k' H) as [x Hx]. congruence.
      - intros k' gk Hne Hg. destruct (rpr_live _ _ _ _ _ P k' gk Hne Hg) as (gk1 & Hg1 & Hsh1 & Hbo1 & Hb1).
        change (live g2 k') with (mjoin (cs' !! k')).
        destruct (decide (k' ∈ ks)) as [D|D].
        + destruct (Vy k' gk1 D Hg1) as (gk2 & Hg2 & Hsh2 & Hbo2 & Hb2). exists gk2. split; [exact Hg2|].
          split. { destruct Hsh1 as (?&?&?&?), Hsh2 as (?&?&?&?). repeat split; congruence. }
          split; [exact Hbo2|]. intros j. rewrite Hb2, elem_of_app, elem_of_list_singleton.
          destruct (Nat.eqb_spec j p) as [->|Hjp].
          * split; [|reflexivity]. intros _. right. split; [tauto|].
            apply Hks in D as [_ (x & Hx1 & Hx2)]. exists x. split; [exact Hx2|]. apply rnb_sym; [assumption|side|exact Hx1].
          * rewrite Hb1. tauto.
        + rewrite Vn by exact D. exists gk1. split; [exact Hg1|]. split; [exact Hsh1|]. split; [exact Hbo1|].
          intros j. rewrite Hb1, elem_of_app, elem_of_list_singleton. split; [tauto|].
          intros [H|[[H|H] (x & Hx1 & Hx2)]]; [tauto|right; eauto|]. subst j. exfalso. apply D, Hks. split; [exact Hne|].
          exists x. split; [|exact Hx1]. apply rnb_sym; [assumption| |exact Hx2]. eapply rwf_on; eassumption.
      - cbn [zobrist_hash g2]. rewrite (rpr_hash _ _ _ _ _ P). symmetry. apply hash_del.
        + lia.
        + destruct (decide (p ∈ done)); [contradiction|]. unfold col. rewrite Hp, Hk. reflexivity.
        + destruct (decide (p ∈ done ++ [p])) as [|D]; [reflexivity|]. exfalso. apply D, elem_of_app. right. left.
        + intros j Hjp. destruct (decide (j ∈ done)) as [D|D]; destruct (decide (j ∈ done ++ [p])) as [D'|D']; try reflexivity.
          * exfalso. apply D', elem_of_app. tauto.
          * exfalso. apply elem_of_app in D' as [D'|D']; [contradiction|]. apply elem_of_list_singleton in D'. contradiction. }
    destruct (IH (done ++ [p]) g2) as (g3 & E3 & P3).
    + rewrite <- app_assoc. exact Hnd.
    + rewrite <- app_assoc. exact Hin.
    + exact P2.
    + exists g3. rewrite <- app_assoc in P3. split; [exact E3|exact P3].
Qed.

Theorem rremove_chain_spec dbg n g k chain :
  rwf n g -> live g k = Some chain ->
  exists g',
    remove_chain dbg g k = Ok g' /\ rwf n g' /\
    length (chains g') = length (chains g) /\
    (forall j, cell g' j = if decide (cell g j = Some k) then None else cell g j) /\
    (forall j, col g' j = if decide (cell g j = Some k) then None else col g j) /\
    live g' k = None /\
    (forall k', live g k' = None -> live g' k' = None) /\
    (forall k' grp, k' <> k -> live g k' = Some grp -> exists grp',
        live g' k' = Some grp' /\ same_shape grp grp').
Proof.
  intros W Hk. pose proof (rwf_n n g W) as Hn. pose proof (rwf_0 n g W) as W0.
  destruct (wf0_chain g W0 k chain Hk) as [Hbo (l & R & Hm)].
  unfold remove_chain. rewrite (chain_at_live _ _ _ Hk). cbn [bind].
  rewrite (group_for_iter _ _ _ _ _ _ (wf0_iter dbg g k chain l W0 R Hm)).
  assert (P0 : rpartial_removal n g k [] g).
  { constructor; try reflexivity.
    - apply (wf0_board g W0).
    - intros k' H. exact H.
    - intros k' gk _ Hg. exists gk. split; [exact Hg|]. split; [repeat split|].
      split; [apply (wf0_chain g W0 k' gk Hg)|]. intros j. rewrite elem_of_nil. tauto.
    - rewrite (rwf_hash n g W). reflexivity. }
  destruct (rremove_loop dbg n g k chain l W Hk [] g) as (g1 & E1 & P).
  { exact (ring_nodup _ _ _ R). }
  { intros i Hi. apply Hm, Hi. }
  { exact P0. }
  cbn [app] in P.
  match goal with |- context [foldM ?F l g] => replace (foldM F l g) with (Ok g1) by (symmetry; exact E1) end.
  cbn [bind].
  assert (Hklt : (k < length (chains g1))%nat) by (rewrite (rpr_len _ _ _ _ _ P); eapply live_lt; exact Hk).
  unfold chains_remove. rewrite vset_ok by exact Hklt. cbn [bind].
  set (g2 := with_chains g1 (<[k := None]> (chains g1))).
  assert (Hlive2 : forall k', live g2 k' = if decide (k' = k) then None else live g1 k').
  { intros k'. unfold live at 1. apply live_put; [exact Hklt|reflexivity]. }
  assert (Hcell2 : forall j, cell g2 j = if decide (cell g j = Some k) then None else cell g j).
  { intros j. change (cell g2 j) with (cell g1 j). rewrite (rpr_cell _ _ _ _ _ P).
    destruct (decide (j ∈ l)) as [D|D]; destruct (decide (cell g j = Some k)) as [D'|D']; try reflexivity;
      rewrite Hm in D; contradiction. }
  assert (Hcellk : forall j k', cell g2 j = Some k' <-> k' <> k /\ cell g j = Some k').
  { intros j k'. rewrite Hcell2. destruct (decide _); intuition congruence. }
  assert (Hlv : forall k' grp, k' <> k -> live g k' = Some grp -> exists grp',
        live g2 k' = Some grp' /\ same_shape grp grp' /\ bits_ok (g_liberties grp') /\
        forall j, lbit (g_liberties grp') j = true <->
                lbit (g_liberties grp) j = true \/ (j ∈ l /\ exists x, cell g x = Some k' /\ j ∈ rnb n x)).
  { intros k' gk Hne Hg. rewrite Hlive2. destruct (decide (k' = k)); [contradiction|].
    apply (rpr_live _ _ _ _ _ P); assumption. }
  assert (Hlv_inv : forall k' grp', live g2 k' = Some grp' -> k' <> k /\ exists grp, live g k' = Some grp).
  { intros k' gk' H. rewrite Hlive2 in H. destruct (decide (k' = k)); [discriminate|]. split; [assumption|].
    destruct (live g k') as [gk|] eqn:E; [eauto|]. rewrite (rpr_none _ _ _ _ _ P k' E) in H. discriminate. }
  assert (Hcol2 : forall j, col g2 j = if decide (cell g j = Some k) then None else col g j).
  { intros j. unfold col. rewrite Hcell2. destruct (decide (cell g j = Some k)) as [D|D]; [reflexivity|].
    destruct (cell g j) as [k'|] eqn:Ej; [|reflexivity].
    destruct (wf0_cell g W0 j k' Ej) as [gk Hg].
    destruct (Hlv k' gk) as (gk' & Hg' & (Hsh & _) & _); [congruence|exact Hg|].
    rewrite Hg, Hg'. congruence. }
  exists g2. split; [reflexivity|].
  assert (Wf2 : rwf n g2).
  { constructor.
    - constructor.
      + apply (rpr_board _ _ _ _ _ P).
      + cbn. rewrite (rpr_next _ _ _ _ _ P). apply (wf0_next g W0).
      + cbn. rewrite insert_length, (rpr_len _ _ _ _ _ P). apply (wf0_len g W0).
      + intros j k' Hj. apply Hcellk in Hj as [Hne Hj]. destruct (wf0_cell g W0 j k' Hj) as [gk Hg].
        destruct (Hlv k' gk Hne Hg) as (gk' & Hg' & _). eauto.
      + intros k' gk' Hg'. destruct (Hlv_inv k' gk' Hg') as [Hne [gk Hg]].
        destruct (Hlv k' gk Hne Hg) as (gk2 & Hg2 & (S1 & S2 & S3 & S4) & Hbo2 & _). assert (gk2 = gk') by congruence. subst gk2.
        split; [exact Hbo2|]. destruct (wf0_chain g W0 k' gk Hg) as [_ (l' & R' & Hm')]. exists l'. split.
        * cbn. rewrite (rpr_next _ _ _ _ _ P). destruct R'. constructor; congruence.
        * intros i. rewrite Hm', Hcellk. intuition congruence.
    - exact Hn.
    - cbn. rewrite (rpr_size _ _ _ _ _ P). apply (rwf_size n g W).
    - intros i k' H. apply Hcellk in H as [_ H]. eapply rwf_on; eassumption.
    - intros k' gk' j Hg'. destruct (Hlv_inv k' gk' Hg') as [Hne [gk Hg]].
      destruct (Hlv k' gk Hne Hg) as (gk2 & Hg2 & _ & _ & Hb). assert (gk2 = gk') by congruence. subst gk2.
      rewrite Hb, (rwf_lib n g W k' gk j Hg), Hcell2.
      assert (Hx : (exists x, cell g2 x = Some k' /\ j ∈ rnb n x) <-> (exists x, cell g x = Some k' /\ j ∈ rnb n x)).
      { split; intros (x & H1 & H2); exists x; [apply Hcellk in H1; tauto|]. split; [apply Hcellk; tauto|exact H2]. }
      rewrite Hx, Hm. destruct (decide (cell g j = Some k)); intuition congruence.
    - intros i j k1 k2 Hij H1 H2 Hc. apply Hcellk in H1 as [N1 H1]. apply Hcellk in H2 as [N2 H2].
      apply (rwf_max n g W i j); try assumption. rewrite !Hcol2 in Hc.
      destruct (decide (cell g i = Some k)); [congruence|]. destruct (decide (cell g j = Some k)); [congruence|exact Hc].
    - intros i j k' H1 H2. apply Hcellk in H1 as [N1 H1]. apply Hcellk in H2 as [_ H2].
      pose proof (rwf_conn n g W i j k' H1 H2) as H. clear -H N1 Hcellk. induction H as [|a b d (A1 & A2 & A3) _ IH]; [apply rtc_refl|].
      eapply rtc_l; [|exact IH]. split; [exact A1|]. split; apply Hcellk; tauto.
    - cbn [zobrist_hash g2 with_chains]. rewrite (rpr_hash _ _ _ _ _ P). apply hash_ext. intros j _. rewrite Hcol2.
      destruct (decide (j ∈ l)) as [D|D]; destruct (decide (cell g j = Some k)) as [D'|D']; try reflexivity;
        rewrite Hm in D; contradiction. }
  split; [exact Wf2|]. split; [cbn; rewrite insert_length; apply (rpr_len _ _ _ _ _ P)|].
  split; [exact Hcell2|]. split; [exact Hcol2|].
  split; [rewrite Hlive2; destruct (decide (k = k)); [reflexivity|contradiction]|]. split.
  - intros k' H. rewrite Hlive2. destruct (decide (k' = k)); [reflexivity|]. apply (rpr_none _ _ _ _ _ P), H.
  - intros k' gk Hne Hg. destruct (Hlv k' gk Hne Hg) as (gk' & H1 & H2 & _). eauto.
Qed.

