(** Boards of any size, in release builds: what stays true of the board when the
    liberties need not be the ones of the geometry. *)
From stdpp Require Import relations.
From Verif Require Import Spec Goban BitsetFacts CoordFacts Struct Push Inv Remove Capture.
From Coq Require Import Lia.

Local Notation length := Datatypes.length.

(** a size that [goban_new] accepts and that has a point *)
Definition okay (s : size_t) : Prop := (1 <= fst s <= 19)%nat /\ (1 <= snd s <= 19)%nat.

(** the parts of the board fit together, the hash is that of the stones *)
Record awf (s : size_t) (g : goban) : Prop := mkAwf {
  awf_0 : wf0 g;
  awf_s : okay s;
  awf_size : gsize g = s;
  awf_hash : zobrist_hash g = hash_of (col g)
}.

Lemma valid_idx s p : okay s -> is_coord_valid s p = true -> (two_to_1dim s p < 361)%nat.
Proof.
  intros [H1 H2] H. unfold is_coord_valid in H. apply andb_true_iff in H as [A B].
  apply Nat.ltb_lt in A, B. unfold two_to_1dim. destruct s as [h w], p as [x y]; cbn in *. nia.
Qed.

Lemma one_to_2dim_any s i : okay s -> exists p, one_to_2dim s i = Ok p.
Proof.
  intros [H1 H2]. unfold one_to_2dim. destruct (Nat.eqb_spec (fst s) 0); [lia|]. destruct (Nat.eqb_spec (snd s) 0); [lia|].
  eexists. reflexivity.
Qed.

Lemma filter_len {A} (f : A -> bool) l : (length (List.filter f l) <= length l)%nat.
Proof. induction l as [|x l IH]; cbn; [lia|]. destruct (f x); cbn; lia. Qed.

Lemma u8_add_any a b : exists v, u8_add false a b = Ok v.
Proof. unfold u8_add. destruct (a + b <? 256)%nat; eauto. Qed.

Lemma valid_coords_any s p : okay s ->
  exists l, valid_coords false p s = Ok l /\ (length l <= 4)%nat /\
    forall q, q ∈ l -> is_coord_valid s q = true.
Proof.
  intros Hs. unfold valid_coords, neighbor_coords. destruct p as [x y].
  destruct (u8_add_any x 1) as [x' ->]. destruct (u8_add_any y 1) as [y' ->]. cbn [bind].
  eexists. split; [reflexivity|]. split; [apply (filter_len _ [_; _; _; _])|].
  intros q Hq. apply elem_of_list_In, List.filter_In in Hq. tauto.
Qed.

Lemma corner_points_any p : exists l, corner_points false p = Ok l /\ (length l = 4)%nat.
Proof. destruct p as [x y]. unfold corner_points.
  destruct (u8_add_any x 1) as [x' ->]. destruct (u8_add_any y 1) as [y' ->]. cbn [bind]. eexists. split; reflexivity. Qed.

Lemma neighbors_idx_any s i : okay s ->
  exists l, neighbors_idx false s i = Ok l /\ (length l <= 4)%nat /\ forall j, j ∈ l -> (j < 361)%nat.
Proof.
  intros Hs. unfold neighbors_idx. destruct (one_to_2dim_any s i Hs) as [p ->]. cbn [bind].
  destruct (valid_coords_any s p Hs) as (l & -> & L & H). cbn [bind]. eexists. split; [reflexivity|].
  split; [rewrite List.map_length; exact L|]. intros j Hj. apply elem_of_list_In, List.in_map_iff in Hj as (q & <- & Hq).
  apply valid_idx; [exact Hs|]. apply H, elem_of_list_In, Hq.
Qed.

Lemma remove_liberties_any g oppo i : forall dead,
  wf0 g -> (i < 361)%nat -> NoDup oppo -> (length dead + length oppo <= 4)%nat ->
  (forall k, k ∈ oppo -> is_Some (live g k)) ->
  exists cs' dead',
    foldM (fun '(cs, dead) k =>
           let! grp := chain_at cs k in
           let! grp' := remove_liberty false grp i in
           let! cs' := chain_put cs k grp' in
           if is_dead grp' then let! dead' := av_push 4 dead k in Ok (cs', dead')
           else Ok (cs', dead)) oppo (chains g, dead) = Ok (cs', dead') /\
    length cs' = length (chains g) /\
    wf0 (with_chains g cs') /\
    (forall k, k ∉ oppo -> live (with_chains g cs') k = live g k) /\
    (forall k grp, k ∈ oppo -> live g k = Some grp -> exists grp',
        live (with_chains g cs') k = Some grp' /\ same_shape grp grp') /\
    (exists dd, dead' = dead ++ dd /\ NoDup dd /\ forall k, k ∈ dd -> k ∈ oppo).
Proof.
  revert g. induction oppo as [|k ks IH]; intros g dead W Hi Hnd HL Hk.
  - exists (chains g), dead. cbn. split; [reflexivity|]. split; [reflexivity|].
    assert (Eg : with_chains g (chains g) = g) by (destruct g; reflexivity). rewrite Eg.
    split; [exact W|]. split; [reflexivity|]. split.
    + intros k grp H. apply elem_of_nil in H. destruct H.
    + exists []. rewrite app_nil_r. split; [reflexivity|]. split; [apply NoDup_nil_2|].
      intros k H. exact H.
  - cbn [foldM length] in *. destruct (Hk k) as (grp & Hlive); [left|].
    rewrite (chain_at_live _ _ _ Hlive). cbn [bind].
    destruct (wf0_chain g W k grp Hlive) as [Hbo (l & R & Hm)].
    destruct (remove_liberty_ok false grp i Hbo) as (grp' & E1 & S1 & Bo1 & B1); [lia|discriminate|].
    rewrite E1. cbn [bind]. rewrite (chain_put_live _ _ _ _ Hlive). cbn [bind].
    destruct (wf0_put g k grp grp' W Hlive S1 Bo1) as [W1 Hlive1].
    set (cs1 := <[k := Some grp']> (chains g)) in *. set (g1 := with_chains g cs1) in *.
    apply NoDup_cons in Hnd as [Hkn Hnd].
    set (dead1 := if is_dead grp' then dead ++ [k] else dead).
    assert (Estep : (if is_dead grp' then let! dead' := av_push 4 dead k in Ok (cs1, dead') else Ok (cs1, dead))
                    = Ok (cs1, dead1)).
    { unfold dead1. destruct (is_dead grp'); [|reflexivity]. unfold av_push.
      destruct (Nat.ltb_spec (length dead) 4); [reflexivity|lia]. }
    rewrite Estep. cbn [bind].
    destruct (IH g1 dead1 W1 Hi Hnd) as (cs' & dead' & E & L & W' & B2 & B3 & dd & B4 & B5 & B6).
    { unfold dead1. destruct (is_dead grp'); rewrite ?app_length; cbn; lia. }
    { intros k0 Hk0. rewrite Hlive1. destruct (decide (k0 = k)); [eauto|]. apply Hk. right. exact Hk0. }
    exists cs', dead'. split; [exact E|].
    split; [rewrite L; cbn; unfold cs1; apply insert_length|].
    split; [exact W'|].
    change (with_chains g1 cs') with (with_chains g cs') in *. split; [|split].
    + intros k0 Hk0. apply not_elem_of_cons in Hk0 as [N1 N2]. rewrite B2 by exact N2. rewrite Hlive1.
      destruct (decide (k0 = k)); congruence.
    + intros k0 gr Hk0 Hg0. destruct (decide (k0 = k)) as [->|Hne].
      * rewrite B2 by exact Hkn. rewrite Hlive1. destruct (decide (k = k)); [|congruence].
        exists grp'. assert (gr = grp) by congruence. subst gr. auto.
      * apply elem_of_cons in Hk0 as [|Hk0]; [contradiction|].
        apply (B3 k0 gr Hk0). rewrite Hlive1. destruct (decide (k0 = k)); congruence.
    + exists ((if is_dead grp' then [k] else []) ++ dd).
      split; [rewrite B4; unfold dead1; destruct (is_dead grp'); rewrite <- ?app_assoc; reflexivity|].
      destruct (is_dead grp'); cbn [app].
      * split; [apply NoDup_cons; split; [intros H; apply Hkn, B6, H|exact B5]|].
        intros x Hx. apply elem_of_cons in Hx as [->|Hx]; [left|right; apply B6, Hx].
      * split; [exact B5|]. intros x Hx. right. apply B6, Hx.
Qed.

Lemma place_any g1 i c same (libs : list nat) :
  wf0 g1 -> (i < 361)%nat -> cell g1 i = None -> NoDup same ->
  (forall k, k ∈ same -> exists gk, live g1 k = Some gk /\ g_color gk = c) ->
  (forall j, j ∈ libs -> (j < 361)%nat) -> (N.of_nat (length (chains g1)) < 65535)%N ->
  exists g' u grpu,
    place_stone false g1 i c same libs = Ok (g', u) /\
    wf0 g' /\ gsize g' = gsize g1 /\ zobrist_hash g' = zobrist_hash g1 /\
    length (chains g') = ((if (length same =? 1)%nat then 0 else 1) + length (chains g1))%nat /\
    (u = length (chains g1) \/ u ∈ same) /\
    (forall j, cell g' j = if decide (j = i \/ cell g1 j ∈ (Some <$> same)) then Some u else cell g1 j) /\
    (forall k, live g' k = if decide (k = u) then Some grpu
                           else if decide (k ∈ same) then None else live g1 k) /\
    g_color grpu = c.
Proof.
  intros W Hi Hc Hnd Hsame Hlibs HB.
  assert (Hlibs' : Forall (fun j => (j < 368)%nat) libs).
  { apply Forall_forall. intros j Hj. specialize (Hlibs j Hj). lia. }
  set (K := length (chains g1)) in *.
  assert (HK : live g1 K = None).
  { unfold live. rewrite lookup_ge_None_2 by (unfold K; lia). reflexivity. }
  destruct same as [|k0 [|k1 ks]].
  - destruct (create_spec false g1 i c libs W Hi Hc Hlibs') as [[E F]|(g' & grp & HL & E & W' & S & Z & L & C & V & Col & B)].
    + fold K in F. lia.
    + exists g', K, grp. cbn [place_stone]. split; [exact E|]. split; [exact W'|]. split; [exact S|].
      split; [exact Z|]. split; [exact L|]. split; [tauto|].
      split; [|split; [|exact Col]].
      * intros j. rewrite C. cbn. destruct (decide (j = i)); destruct (decide (j = i \/ cell g1 j ∈ [])) as [D|D]; try tauto.
        destruct D as [|D]; [tauto|]. apply elem_of_nil in D. destruct D.
      * intros k. rewrite V. fold K. destruct (decide (k = K)); [reflexivity|].
        destruct (decide (k ∈ [])) as [D|D]; [apply elem_of_nil in D; destruct D|reflexivity].
  - destruct (Hsame k0) as (gk & Hk & Hcol); [left|].
    destruct (wf0_chain g1 W k0 gk Hk) as [Hbo _].
    destruct (remove_liberty_ok false gk i Hbo) as (gk1 & E1 & S1 & Bo1 & B1); [lia|discriminate|].
    destruct (union_liberties_ok gk1 libs Bo1 Hlibs') as (gk2 & E2 & S2 & Bo2 & B2).
    assert (S12 : same_shape gk gk2).
    { destruct S1 as (?&?&?&?), S2 as (?&?&?&?). repeat split; congruence. }
    destruct (wf0_put g1 k0 gk gk2 W Hk S12 Bo2) as [W2 V2].
    set (g2 := with_chains g1 (<[k0 := Some gk2]> (chains g1))) in *.
    assert (Hk2 : live g2 k0 = Some gk2) by (rewrite V2; destruct (decide _); congruence).
    destruct (add_stone_spec false g2 k0 gk2 i W2 Hk2 Hi Hc)
      as (g3 & gk3 & E3 & Bd3 & Sz3 & Z3 & L3 & W3 & V3 & Col3 & Lib3).
    assert (Hk0lt : (k0 < length (chains g1))%nat) by (eapply live_lt; exact Hk).
    assert (HkN : (N.of_nat k0 < 65535)%N) by (pose proof (wf0_len g1 W); lia).
    exists (with_board g3 (<[i := Some k0]> (board g3))), k0, gk3.
    split.
    { cbn [place_stone]. rewrite (chain_at_live _ _ _ Hk). cbn [bind]. rewrite E1. cbn [bind]. rewrite E2. cbn [bind].
      rewrite (chain_put_live _ _ _ _ Hk). cbn [bind]. fold g2. rewrite E3. cbn [bind].
      rewrite nonmax_ok by exact HkN. cbn [bind].
      rewrite vset_ok by (rewrite Bd3; cbn; rewrite (wf0_board g1 W); exact Hi). reflexivity. }
    split; [exact W3|]. split; [exact Sz3|]. split; [exact Z3|].
    split. { cbn [chains with_board]. rewrite L3. cbn. rewrite insert_length. unfold K. lia. }
    split; [right; left|].
    split; [|split].
    + intros j. unfold cell at 1. cbn [board with_board]. rewrite Bd3.
      change (board g2) with (board g1).
      destruct (decide (j = i)) as [->|Hji].
      * rewrite list_lookup_insert by (rewrite (wf0_board g1 W); exact Hi). cbn.
        destruct (decide _) as [|D]; [reflexivity|]. tauto.
      * rewrite list_lookup_insert_ne by congruence. fold (cell g1 j).
        destruct (decide (j = i \/ cell g1 j ∈ Some <$> [k0])) as [D|D]; [|reflexivity].
        destruct D as [|D]; [contradiction|]. cbn in D. apply elem_of_list_singleton in D. exact D.
    + intros k. change (live (with_board g3 (<[i:=Some k0]> (board g3))) k) with (live g3 k).
      rewrite V3, V2. destruct (decide (k = k0)); [reflexivity|].
      destruct (decide (k ∈ [k0])) as [D|D]; [|reflexivity]. apply elem_of_list_singleton in D. contradiction.
    + destruct S12 as (Hc12 & _). congruence.
  - set (same := k0 :: k1 :: ks) in *.
    destruct (create_spec false g1 i c libs W Hi Hc Hlibs') as [[E F]|(g2 & grp & HL & E & W' & S & Z & L & C & V & Col & B)].
    + fold K in F. lia.
    + fold K in E, C, V.
      destruct (merge_all_gen false g1 c i libs K same W HK Hnd) with (P := @nil nat) (t := K) (gt := g2) (grpt := grp)
        as (g3 & u & gu & R1 & R2 & R3 & R4 & R5 & R6 & R7 & R8 & R9 & R10).
      * intros k Hk. destruct (Hsame k Hk) as (gk & ? & ?). eauto.
      * exact W'.
      * exact S.
      * exact Z.
      * tauto.
      * intros H. destruct (Hsame K H) as (gk & Hx & _). congruence.
      * apply not_elem_of_nil.
      * intros k _. apply not_elem_of_nil.
      * intros j. rewrite C. cbn. destruct (decide (j = i)); destruct (decide (j = i \/ cell g1 j ∈ [])) as [D|D]; try tauto.
        destruct D as [|D]; [tauto|]. apply elem_of_nil in D. destruct D.
      * intros k. rewrite V. destruct (decide (k = K)) as [|Nk]; [reflexivity|].
        destruct (decide (k = K \/ k ∈ [])) as [[D|D]|D]; [contradiction|apply elem_of_nil in D; destruct D|reflexivity].
      * exact Col.
      * intros j. rewrite B. split; [tauto|]. intros [H|(k & gk & H & _)]; [exact H|]. apply elem_of_nil in H. destruct H.
      * cbn [app] in R6, R7, R8, R10.
        assert (Hgu : live g3 u = Some gu) by (rewrite R8; destruct (decide (u = u)); congruence).
        destruct (wf0_chain g3 R2 u gu Hgu) as [Hbo _].
        destruct (remove_liberty_ok false gu i Hbo) as (gu1 & E1 & S1 & Bo1 & B1); [lia|discriminate|].
        destruct (wf0_put g3 u gu gu1 R2 Hgu S1 Bo1) as [W4 V4].
        exists (with_chains g3 (<[u := Some gu1]> (chains g3))), u, gu1.
        split. { unfold place_stone, same. rewrite E. cbn [bind]. fold same. rewrite R1. cbn [bind].
          rewrite (chain_at_live _ _ _ Hgu). cbn [bind]. rewrite E1. cbn [bind].
          rewrite (chain_put_live _ _ _ _ Hgu). reflexivity. }
        split; [exact W4|]. split; [exact R3|]. split; [exact R4|].
        split. { cbn. rewrite insert_length, R5, L. unfold K. lia. }
        split; [exact R6|].
        split; [|split].
        -- exact R7.
        -- intros k. rewrite V4, R8. destruct (decide (k = u)) as [|Nk]; [reflexivity|].
           destruct (decide (k = K \/ k ∈ same)) as [D|D]; destruct (decide (k ∈ same)) as [D'|D']; try tauto.
           destruct D as [->|]; [|contradiction]. congruence.
        -- destruct S1 as (Hx & _). congruence.
Qed.

(** [push_wth_feedback], index below 361, any size *)
Lemma push_any s g p c :
  awf s g -> (two_to_1dim s p < 361)%nat -> cell g (two_to_1dim s p) = None ->
  (N.of_nat (length (chains g)) < 65535)%N ->
  exists g' dead u gu,
    push_wth_feedback false g p c = Ok (g', dead, u) /\ awf s g' /\
    (length (chains g) <= length (chains g') <= S (length (chains g)))%nat /\
    cell g' (two_to_1dim s p) = Some u /\ live g' u = Some gu /\ g_color gu = c /\
    (forall k, (k < length (chains g))%nat -> live g k = None -> live g' k = None) /\
    (forall j, col g' j = if decide (j = two_to_1dim s p) then Some c else col g j) /\
    NoDup dead /\ (forall k, k ∈ dead -> exists grp, live g' k = Some grp /\ g_color grp = opp c).
Proof.
  intros A Hi361 Hi HB. pose proof (awf_0 s g A) as W0. pose proof (awf_s s g A) as Hs.
  unfold push_wth_feedback. rewrite (awf_size s g A). set (i := two_to_1dim s p) in *.
  destruct (neighbors_idx_any s i Hs) as (nbs & -> & Lnb & Hnb). cbn [bind].
  destruct (classify_spec g c nbs W0 Hnb Lnb)
    as (same & oppo & libs & Ec & Nd1 & Nd2 & L1 & L2 & Hsame & Hoppo & Hlibs).
  rewrite Ec. cbn [bind].
  destruct (remove_liberties_any g oppo i [] W0 Hi361 Nd2) as (cs1 & dead & Erl & Lcs & W1 & V1 & V2 & dd & Edd & Ndd & Hdd).
  { cbn. exact L2. }
  { intros k Hk. apply Hoppo in Hk as (j & grp & Hj & Hc & Hg & _). eauto. }
  fold (remove_liberties false (chains g) oppo i) in Erl. rewrite Erl. cbn [bind].
  cbn [app] in Edd. subst dd. set (g1 := with_chains g cs1) in *.
  assert (Hdisj : forall k, k ∈ same -> k ∉ oppo).
  { intros k H1 H2. apply Hsame in H1 as (j1 & gr1 & _ & _ & Hl1 & Hc1).
    apply Hoppo in H2 as (j2 & gr2 & _ & _ & Hl2 & Hc2).
    assert (gr1 = gr2) by congruence. subst. destruct (opp_ne (g_color gr2)). congruence. }
  assert (Hlive_same : forall k, k ∈ same -> exists gk, live g k = Some gk /\ live g1 k = Some gk /\ g_color gk = c).
  { intros k Hk. pose proof (Hdisj k Hk) as Ho. apply Hsame in Hk as (j & gk & Hj & Hc & Hg & Hcol).
    exists gk. split; [exact Hg|]. split; [rewrite V1; assumption|exact Hcol]. }
  destruct (place_any g1 i c same libs W1 Hi361) as (g' & u & gu & E & W' & Sz & Z & L & Hu & C' & V' & Colu).
  { exact Hi. }
  { exact Nd1. }
  { intros k Hk. destruct (Hlive_same k Hk) as (gk & ? & ? & ?). exists gk. auto. }
  { intros j Hj. apply Hlibs in Hj as [Hj _]. apply Hnb, Hj. }
  { cbn. rewrite Lcs. exact HB. }
  rewrite E. cbn [bind]. rewrite index_zobrist_ok by exact Hi361. cbn [bind].
  set (g2 := with_hash g' (N.lxor (zobrist_hash g') (zval i c))).
  assert (W2 : wf0 g2) by (destruct W'; constructor; assumption).
  exists g2, dead, u, gu. split; [reflexivity|].
  change (chains g1) with cs1 in L, Hu. rewrite Lcs in L, Hu.
  assert (Hu_fresh : forall j k, cell g j = Some k -> k ∉ same -> k <> u).
  { intros j k Hj Hk ->. destruct Hu as [->|Hu]; [|contradiction].
    destruct (wf0_cell g W0 j _ Hj) as [x Hx]. apply live_lt in Hx. lia. }
  assert (Hcell2 : forall j, cell g2 j = if decide (j = i \/ cell g j ∈ (Some <$> same)) then Some u else cell g j).
  { intros j. apply C'. }
  assert (Hlive2 : forall k, live g2 k = if decide (k = u) then Some gu
                     else if decide (k ∈ same) then None else live g1 k) by (exact V').
  assert (Hcol2 : forall j, col g2 j = if decide (j = i) then Some c else col g j).
  { intros j. unfold col at 1. rewrite Hcell2. destruct (decide (j = i \/ cell g j ∈ Some <$> same)) as [D|D].
    - rewrite Hlive2. destruct (decide (u = u)); [|contradiction]. rewrite Colu.
      destruct (decide (j = i)) as [|Hji]; [reflexivity|]. destruct D as [D|D]; [contradiction|].
      apply elem_of_list_fmap in D as (k & E1 & E2). destruct (Hlive_same k E2) as (gk & Hg & _ & Hcl).
      unfold col. rewrite E1, Hg, Hcl. reflexivity.
    - destruct (decide (j = i)) as [|Hji]; [tauto|]. unfold col. destruct (cell g j) as [k|] eqn:Ej; [|reflexivity].
      assert (Hks : k ∉ same) by (intros H; apply D; right; apply list_In_mapsome, H).
      rewrite Hlive2. destruct (decide (k = u)) as [Hku|Hku]; [destruct (Hu_fresh j k Ej Hks Hku)|].
      destruct (decide (k ∈ same)); [contradiction|]. destruct (wf0_cell g W0 j k Ej) as [gk Hg]. rewrite Hg.
      destruct (decide (k ∈ oppo)) as [Ho|Ho].
      + destruct (V2 k gk Ho Hg) as (gk' & Hg' & (Hsh & _)). rewrite Hg'. congruence.
      + rewrite (V1 k Ho), Hg. reflexivity. }
  split.
  { constructor; [exact W2|exact Hs|exact (eq_trans Sz (awf_size s g A))|].
    cbn [zobrist_hash g2 with_hash]. rewrite Z. change (zobrist_hash g1) with (zobrist_hash g). rewrite (awf_hash s g A).
    symmetry. apply hash_add.
    - exact Hi361.
    - unfold col. rewrite Hi. reflexivity.
    - rewrite Hcol2. destruct (decide (i = i)); [reflexivity|contradiction].
    - intros j Hj. rewrite Hcol2. destruct (decide (j = i)); [contradiction|reflexivity]. }
  split. { cbn [chains g2 with_hash]. rewrite L. destruct (length same =? 1)%nat; lia. }
  split. { rewrite Hcell2. destruct (decide _) as [|D]; [reflexivity|]. exfalso. apply D. left. reflexivity. }
  split. { rewrite Hlive2. destruct (decide (u = u)); [reflexivity|contradiction]. }
  split; [exact Colu|]. split; [|split; [exact Hcol2|split; [exact Ndd|]]].
  - intros k Hkl Hk. rewrite Hlive2. destruct (decide (k = u)) as [->|Hku].
    + destruct Hu as [Hu|Hu]; [lia|]. destruct (Hlive_same u Hu) as (gk & Hg & _). congruence.
    + destruct (decide (k ∈ same)); [reflexivity|]. destruct (decide (k ∈ oppo)) as [Ho|Ho].
      * apply Hoppo in Ho as (j & grp & _ & _ & Hg & _). congruence.
      * rewrite (V1 k Ho). exact Hk.
  - intros k Hk. apply Hdd in Hk. pose proof Hk as Ho. apply Hoppo in Hk as (j & grp & Hj & Hc & Hg & Hcl).
    destruct (V2 k grp Ho Hg) as (grp' & Hg' & (Hsh & _)). rewrite Hlive2.
    assert (Hks : k ∉ same) by (intros H; exact (Hdisj k H Ho)).
    destruct (decide (k = u)) as [Hku|Hku]; [destruct (Hu_fresh j k Hc Hks Hku)|].
    destruct (decide (k ∈ same)); [contradiction|]. exists grp'. split; [exact Hg'|].
    congruence.
Qed.

Lemma connected_any s g i : awf s g ->
  exists l, get_connected_groups_idx false g i = Ok l /\ NoDup l /\
    forall k, k ∈ l -> exists j, (j < 361)%nat /\ cell g j = Some k.
Proof.
  intros A. unfold get_connected_groups_idx. rewrite (awf_size s g A).
  destruct (neighbors_idx_any s i (awf_s s g A)) as (nbs & -> & Lnb & Hnb). cbn [bind].
  destruct (connected_gen (board g) (cell g) nbs []) as (l & E & N & H1).
  - intros j Hj. apply vget_board. rewrite (wf0_board g (awf_0 s g A)). apply Hnb, Hj.
  - apply NoDup_nil_2.
  - exact Lnb.
  - exists l. split; [exact E|]. split; [exact N|]. intros k Hk. apply H1 in Hk as [Hk|(j & Hj & Hc)].
    + apply elem_of_nil in Hk. destruct Hk.
    + eauto.
Qed.

Lemma add_liberty_any grp i :
  bits_ok (g_liberties grp) -> (i < 368)%nat ->
  exists grp', add_liberty false grp i = Ok grp' /\ same_shape grp grp' /\ bits_ok (g_liberties grp').
Proof.
  intros Hbo Hi. unfold add_liberty. cbn [debug_assert bind]. unfold add_liberty_unchecked.
  destruct (lib_set_spec true (g_liberties grp) i Hbo Hi) as (bits & Es & Hbo' & Hb).
  rewrite Es. cbn [bind]. exists (with_liberties grp bits). split; [reflexivity|].
  split; [repeat split|exact Hbo'].
Qed.

Lemma add_all_any p (ks : list nat) : forall cs,
  (p < 368)%nat ->
  (forall k, k ∈ ks -> is_Some (mjoin (cs !! k))) ->
  (forall k grp, mjoin (cs !! k) = Some grp -> bits_ok (g_liberties grp)) ->
  exists cs',
    foldM (fun cs n => let! grp := chain_at cs n in
                       let! grp' := add_liberty false grp p in
                       chain_put cs n grp') ks cs = Ok cs' /\
    length cs' = length cs /\
    (forall k, mjoin (cs !! k) = None -> mjoin (cs' !! k) = None) /\
    (forall k grp, mjoin (cs !! k) = Some grp -> exists grp',
        mjoin (cs' !! k) = Some grp' /\ same_shape grp grp' /\ bits_ok (g_liberties grp')).
Proof.
  induction ks as [|k ks IH]; intros cs Hp Hks Hbits.
  - exists cs. cbn. repeat split; [tauto|]. intros k grp H. exists grp. split; [exact H|]. split; [repeat split|eauto].
  - cbn [foldM].
    destruct (Hks k) as (grp & Hg); [left|].
    set (g0 := mkGoban cs [] [] (0, 0)%nat 0%N).
    assert (Hlive : live g0 k = Some grp) by exact Hg.
    pose proof (chain_at_live g0 k grp Hlive) as Ea. cbn in Ea. rewrite Ea. cbn [bind].
    destruct (add_liberty_any grp p (Hbits k grp Hg) Hp) as (grp' & E' & Sh & Hbo'). rewrite E'. cbn [bind].
    pose proof (chain_put_live g0 k grp grp' Hlive) as Ep. cbn in Ep. rewrite Ep. cbn [bind].
    assert (Hl : forall k', mjoin (<[k := Some grp']> cs !! k') = if decide (k' = k) then Some grp' else mjoin (cs !! k')).
    { intros k'. apply (live_put g0 k (Some grp')); [apply live_lt in Hlive; exact Hlive|reflexivity]. }
    destruct (IH (<[k := Some grp']> cs) Hp) as (cs' & E & L & A & B).
    { intros k0 Hk0. rewrite Hl. destruct (decide (k0 = k)); [eauto|]. apply Hks. right. exact Hk0. }
    { intros k0 gr H. rewrite Hl in H. destruct (decide (k0 = k)); [injection H as <-; exact Hbo'|eauto]. }
    exists cs'. split; [exact E|]. split; [rewrite L; apply insert_length|]. split.
    + intros k0 Hk0. apply A. rewrite Hl. destruct (decide (k0 = k)) as [->|]; [congruence|exact Hk0].
    + intros k0 gr Hg0. destruct (decide (k0 = k)) as [->|Hne].
      * destruct (B k grp') as (gr' & B1 & B2 & B3); [rewrite Hl; destruct (decide (k = k)); congruence|].
        assert (gr = grp) by congruence. subst gr. exists gr'. split; [exact B1|]. split; [|exact B3].
        destruct Sh as (?&?&?&?), B2 as (?&?&?&?). repeat split; congruence.
      * apply B. rewrite Hl. destruct (decide (k0 = k)); congruence.
Qed.

(** the board while the stones of group [k] are being taken off *)
Record apartial (s : size_t) (g : goban) (k : nat) (done : list nat) (g' : goban) : Prop := mkAP {
  ap_board : length (board g') = 361%nat;
  ap_next : next_stone g' = next_stone g;
  ap_size : gsize g' = gsize g;
  ap_len : length (chains g') = length (chains g);
  ap_cell : forall j, cell g' j = if decide (j ∈ done) then None else cell g j;
  ap_none : forall k', live g k' = None -> live g' k' = None;
  ap_live : forall k' gk, live g k' = Some gk -> exists gk',
      live g' k' = Some gk' /\ same_shape gk gk' /\ bits_ok (g_liberties gk');
  ap_hash : zobrist_hash g' = hash_of (fun j => if decide (j ∈ done) then None else col g j)
}.

Lemma remove_loop_any s g k chain l :
  awf s g -> live g k = Some chain ->
  forall done g1, NoDup (done ++ l) -> (forall i, i ∈ done ++ l -> cell g i = Some k) ->
  apartial s g k done g1 ->
  exists g2,
    foldM (fun g p =>
             let! nbs := get_connected_groups_idx false g p in
             let nbs := List.filter (fun x => negb (x =? k)%nat) nbs in
             let! cs := foldM (fun cs n =>
                                 let! grp := chain_at cs n in
                                 let! grp' := add_liberty false grp p in
                                 chain_put cs n grp') nbs (chains g) in
             let! z := index_zobrist p (g_color chain) in
             let! b := vset (board g) p None in
             Ok (mkGoban cs b (next_stone g) (gsize g) (N.lxor (zobrist_hash g) z)))
          l g1 = Ok g2 /\ apartial s g k (done ++ l) g2.
Proof.
  intros A Hk. pose proof (awf_0 s g A) as W0.
  induction l as [|p l IH]; intros done g1 Hnd Hin P.
  - exists g1. rewrite app_nil_r. split; [reflexivity|exact P].
  - cbn [foldM].
    assert (Hp : cell g p = Some k) by (apply Hin, elem_of_app; right; left).
    assert (Hp361 : (p < 361)%nat).
    { rewrite <- (wf0_board g W0). unfold cell in Hp. destruct (board g !! p) eqn:E; [|discriminate].
      apply lookup_lt_Some in E. exact E. }
    assert (Hpd : p ∉ done).
    { apply NoDup_app in Hnd as (_ & Hd & _). intros H. apply (Hd p H). left. }
    assert (Enb : exists nbs, get_connected_groups_idx false g1 p = Ok nbs /\ NoDup nbs /\
              forall k', k' ∈ nbs -> exists j, (j < 361)%nat /\ cell g1 j = Some k').
    { unfold get_connected_groups_idx. rewrite (ap_size _ _ _ _ _ P), (awf_size s g A).
      destruct (neighbors_idx_any s p (awf_s s g A)) as (nb & -> & Lnb & Hnb). cbn [bind].
      destruct (connected_gen (board g1) (cell g1) nb []) as (r & E & N & H1).
      - intros j Hj. apply vget_board. rewrite (ap_board _ _ _ _ _ P). apply Hnb, Hj.
      - apply NoDup_nil_2.
      - exact Lnb.
      - exists r. split; [exact E|]. split; [exact N|]. intros k' Hk'. apply H1 in Hk' as [Hk'|(j & Hj & Hc)].
        + apply elem_of_nil in Hk'. destruct Hk'.
        + eauto. }
    destruct Enb as (nbs & En & Nn & Hn'). rewrite En. cbn [bind].
    set (ks := List.filter (fun x => negb (x =? k)%nat) nbs).
    destruct (add_all_any p ks (chains g1)) as (cs' & Ecs & Lcs & Vn & Vy); [lia| | |].
    { intros k' Hk'. unfold ks in Hk'. apply elem_of_list_In, List.filter_In in Hk' as [Hk' _].
      apply elem_of_list_In, Hn' in Hk' as (j & Hj & Hc). rewrite (ap_cell _ _ _ _ _ P) in Hc.
      destruct (decide (j ∈ done)); [discriminate|]. destruct (wf0_cell g W0 j k' Hc) as [gk Hg].
      destruct (ap_live _ _ _ _ _ P k' gk Hg) as (gk' & Hg' & _). exists gk'. exact Hg'. }
    { intros k' gk' Hg'. destruct (live g k') as [gk|] eqn:Hg.
      - destruct (ap_live _ _ _ _ _ P k' gk Hg) as (gk2 & Hg2 & _ & Hbo). unfold live in Hg2. congruence.
      - apply (ap_none _ _ _ _ _ P) in Hg. unfold live in Hg. congruence. }
    rewrite Ecs. cbn [bind]. rewrite index_zobrist_ok by lia. cbn [bind].
    rewrite vset_ok by (rewrite (ap_board _ _ _ _ _ P); lia). cbn [bind].
    set (g2 := mkGoban cs' (<[p:=None]> (board g1)) (next_stone g1) (gsize g1)
                 (N.lxor (zobrist_hash g1) (zval p (g_color chain)))).
    assert (P2 : apartial s g k (done ++ [p]) g2).
    { constructor.
      - cbn. rewrite insert_length. apply (ap_board _ _ _ _ _ P).
      - apply (ap_next _ _ _ _ _ P).
      - apply (ap_size _ _ _ _ _ P).
      - cbn. rewrite Lcs. apply (ap_len _ _ _ _ _ P).
      - intros j. unfold cell at 1. cbn [board g2]. destruct (decide (j = p)) as [->|Hjp].
        + rewrite list_lookup_insert by (rewrite (ap_board _ _ _ _ _ P); lia). cbn.
          destruct (decide (p ∈ done ++ [p])) as [|D]; [reflexivity|]. exfalso. apply D, elem_of_app. right. left.
        + rewrite list_lookup_insert_ne by congruence. fold (cell g1 j). rewrite (ap_cell _ _ _ _ _ P).
          destruct (decide (j ∈ done)) as [D|D]; destruct (decide (j ∈ done ++ [p])) as [D'|D']; try reflexivity.
          * exfalso. apply D', elem_of_app. tauto.
          * exfalso. apply elem_of_app in D' as [D'|D']; [contradiction|]. apply elem_of_list_singleton in D'. contradiction.
      - intros k' Hk'. apply Vn. apply (ap_none _ _ _ _ _ P), Hk'.
      - intros k' gk Hg. destruct (ap_live _ _ _ _ _ P k' gk Hg) as (gk1 & Hg1 & Hsh1 & Hbo1).
        destruct (Vy k' gk1 Hg1) as (gk2 & Hg2 & Hsh2 & Hbo2). exists gk2. split; [exact Hg2|].
        split; [|exact Hbo2]. destruct Hsh1 as (?&?&?&?), Hsh2 as (?&?&?&?). repeat split; congruence.
      - cbn [zobrist_hash g2]. rewrite (ap_hash _ _ _ _ _ P). symmetry. apply hash_del.
        + lia.
        + destruct (decide (p ∈ done)); [contradiction|]. unfold col. rewrite Hp, Hk. reflexivity.
        + destruct (decide (p ∈ done ++ [p])) as [|D]; [reflexivity|]. exfalso. apply D, elem_of_app. right. left.
        + intros j Hjp. destruct (decide (j ∈ done)) as [D|D]; destruct (decide (j ∈ done ++ [p])) as [D'|D']; try reflexivity.
          * exfalso. apply D', elem_of_app. tauto.
          * exfalso. apply elem_of_app in D' as [D'|D']; [contradiction|]. apply elem_of_list_singleton in D'. contradiction. }
    destruct (IH (done ++ [p]) g2) as (g3 & E3 & P3).
    + rewrite <- app_assoc. exact Hnd.
    + rewrite <- app_assoc. exact Hin.
    + exact P2.
    + exists g3. rewrite <- app_assoc in P3. split; [exact E3|exact P3].
Qed.

Lemma remove_any s g k chain :
  awf s g -> live g k = Some chain ->
  exists g',
    remove_chain false g k = Ok g' /\ awf s g' /\
    length (chains g') = length (chains g) /\
    (forall j, cell g' j = if decide (cell g j = Some k) then None else cell g j) /\
    (forall j, col g' j = if decide (cell g j = Some k) then None else col g j) /\
    live g' k = None /\
    (forall k', live g k' = None -> live g' k' = None) /\
    (forall k' grp, k' <> k -> live g k' = Some grp -> exists grp',
        live g' k' = Some grp' /\ same_shape grp grp').
Proof.
  intros W Hk. pose proof (awf_0 s g W) as W0.
  destruct (wf0_chain g W0 k chain Hk) as [Hbo (l & R & Hm)].
  unfold remove_chain. rewrite (chain_at_live _ _ _ Hk). cbn [bind].
  rewrite (group_for_iter _ _ _ _ _ _ (wf0_iter false g k chain l W0 R Hm)).
  assert (P0 : apartial s g k [] g).
  { constructor; try reflexivity.
    - apply (wf0_board g W0).
    - intros k' H. exact H.
    - intros k' gk Hg. exists gk. split; [exact Hg|]. split; [repeat split|].
      apply (wf0_chain g W0 k' gk Hg).
    - rewrite (awf_hash s g W). reflexivity. }
  destruct (remove_loop_any s g k chain l W Hk [] g) as (g1 & E1 & P).
  { exact (ring_nodup _ _ _ R). }
  { intros i Hi. apply Hm, Hi. }
  { exact P0. }
  cbn [app] in P.
  match goal with |- context [foldM ?F l g] => replace (foldM F l g) with (Ok g1) by (symmetry; exact E1) end.
  cbn [bind].
  assert (Hklt : (k < length (chains g1))%nat) by (rewrite (ap_len _ _ _ _ _ P); eapply live_lt; exact Hk).
  unfold chains_remove. rewrite vset_ok by exact Hklt. cbn [bind].
  set (g2 := with_chains g1 (<[k := None]> (chains g1))).
  assert (Hlive2 : forall k', live g2 k' = if decide (k' = k) then None else live g1 k').
  { intros k'. unfold live at 1. apply live_put; [exact Hklt|reflexivity]. }
  assert (Hcell2 : forall j, cell g2 j = if decide (cell g j = Some k) then None else cell g j).
  { intros j. change (cell g2 j) with (cell g1 j). rewrite (ap_cell _ _ _ _ _ P).
    destruct (decide (j ∈ l)) as [D|D]; destruct (decide (cell g j = Some k)) as [D'|D']; try reflexivity;
      rewrite Hm in D; contradiction. }
  assert (Hcellk : forall j k', cell g2 j = Some k' <-> k' <> k /\ cell g j = Some k').
  { intros j k'. rewrite Hcell2. destruct (decide _); intuition congruence. }
  assert (Hlv : forall k' grp, k' <> k -> live g k' = Some grp -> exists grp',
        live g2 k' = Some grp' /\ same_shape grp grp' /\ bits_ok (g_liberties grp')).
  { intros k' gk Hne Hg. rewrite Hlive2. destruct (decide (k' = k)); [contradiction|].
    apply (ap_live _ _ _ _ _ P); assumption. }
  assert (Hlv_inv : forall k' grp', live g2 k' = Some grp' -> k' <> k /\ exists grp, live g k' = Some grp).
  { intros k' gk' H. rewrite Hlive2 in H. destruct (decide (k' = k)); [discriminate|]. split; [assumption|].
    destruct (live g k') as [gk|] eqn:E; [eauto|]. rewrite (ap_none _ _ _ _ _ P k' E) in H. discriminate. }
  assert (Hcol2 : forall j, col g2 j = if decide (cell g j = Some k) then None else col g j).
  { intros j. unfold col. rewrite Hcell2. destruct (decide (cell g j = Some k)) as [D|D]; [reflexivity|].
    destruct (cell g j) as [k'|] eqn:Ej; [|reflexivity].
    destruct (wf0_cell g W0 j k' Ej) as [gk Hg].
    destruct (Hlv k' gk) as (gk' & Hg' & (Hsh & _) & _); [congruence|exact Hg|].
    rewrite Hg, Hg'. congruence. }
  exists g2. split; [reflexivity|].
  assert (Wf2 : awf s g2).
  { constructor.
    - constructor.
      + apply (ap_board _ _ _ _ _ P).
      + cbn. rewrite (ap_next _ _ _ _ _ P). apply (wf0_next g W0).
      + cbn. rewrite insert_length, (ap_len _ _ _ _ _ P). apply (wf0_len g W0).
      + intros j k' Hj. apply Hcellk in Hj as [Hne Hj]. destruct (wf0_cell g W0 j k' Hj) as [gk Hg].
        destruct (Hlv k' gk Hne Hg) as (gk' & Hg' & _). eauto.
      + intros k' gk' Hg'. destruct (Hlv_inv k' gk' Hg') as [Hne [gk Hg]].
        destruct (Hlv k' gk Hne Hg) as (gk2 & Hg2 & (S1 & S2 & S3 & S4) & Hbo2). assert (gk2 = gk') by congruence. subst gk2.
        split; [exact Hbo2|]. destruct (wf0_chain g W0 k' gk Hg) as [_ (l' & R' & Hm')]. exists l'. split.
        * cbn. rewrite (ap_next _ _ _ _ _ P). destruct R'. constructor; congruence.
        * intros i. rewrite Hm', Hcellk. intuition congruence.
    - exact (awf_s s g W).
    - cbn. rewrite (ap_size _ _ _ _ _ P). apply (awf_size s g W).
    - cbn [zobrist_hash g2 with_chains]. rewrite (ap_hash _ _ _ _ _ P). apply hash_ext. intros j _. rewrite Hcol2.
      destruct (decide (j ∈ l)) as [D|D]; destruct (decide (cell g j = Some k)) as [D'|D']; try reflexivity;
        rewrite Hm in D; contradiction. }
  split; [exact Wf2|]. split; [cbn; rewrite insert_length; apply (ap_len _ _ _ _ _ P)|].
  split; [exact Hcell2|]. split; [exact Hcol2|].
  split; [rewrite Hlive2; destruct (decide (k = k)); [reflexivity|contradiction]|]. split.
  - intros k' H. rewrite Hlive2. destruct (decide (k' = k)); [reflexivity|]. apply (ap_none _ _ _ _ _ P), H.
  - intros k' gk Hne Hg. destruct (Hlv k' gk Hne Hg) as (gk' & H1 & H2 & _). eauto.
Qed.

Lemma cell_bound g j k : wf0 g -> cell g j = Some k -> (j < 361)%nat.
Proof.
  intros W H. rewrite <- (wf0_board g W). unfold cell in H. destruct (board g !! j) eqn:E; [|discriminate].
  apply lookup_lt_Some in E. exact E.
Qed.

Lemma col_bound g j c : wf0 g -> col g j = Some c -> (j < 361)%nat.
Proof. intros W H. unfold col in H. destruct (cell g j) eqn:E; [|discriminate]. eapply cell_bound; eassumption. Qed.

Lemma remove_count_any s g g' k grp x :
  awf s g -> live g k = Some grp ->
  (forall j, col g' j = if decide (cell g j = Some k) then None else col g j) ->
  icount 19 (col g) x = (icount 19 (col g') x + (if decide (x = g_color grp) then g_num_stones grp else 0))%nat.
Proof.
  intros A Hk Hc. pose proof (awf_0 s g A) as W0. destruct (wf0_chain g W0 k grp Hk) as [_ (l & R & Hm)].
  assert (HL : length l = g_num_stones grp) by (destruct R; assumption).
  assert (Hnd : NoDup l) by (destruct R; assumption).
  rewrite (icount_clear 19 (col g) (col g') l (g_color grp) x Hnd).
  - rewrite HL. reflexivity.
  - intros j Hj. apply Hm in Hj. split; [exact (cell_bound g j k W0 Hj)|]. unfold col. rewrite Hj, Hk. reflexivity.
  - intros j. rewrite Hc. destruct (decide (cell g j = Some k)) as [D|D]; destruct (decide (j ∈ l)) as [D'|D'];
      try reflexivity; rewrite Hm in D'; contradiction.
Qed.

Lemma captured_loop_any s only dead :
  forall g removed ko,
  awf s g -> NoDup dead ->
  (forall k, k ∈ dead -> is_Some (live g k)) ->
  exists g1 removed' ko',
    foldM (fun '(g, removed, ko) d =>
             let! dead := chain_at (chains g) d in
             let! ko' :=
               (if (g_num_stones dead =? 1)%nat && only then
                  let! q := one_to_2dim (gsize g) (g_origin dead) in Ok (Some q)
                else Ok ko) in
             let num := N.of_nat (g_num_stones dead) in
             let removed' :=
               match g_color dead with
               | White => (fst removed + num, snd removed)%N
               | Black => (fst removed, snd removed + num)%N
               end in
             let! g' := remove_chain false g d in
             Ok (g', removed', ko')) dead (g, removed, ko) = Ok (g1, removed', ko') /\
    awf s g1 /\ length (chains g1) = length (chains g) /\
    (forall j, col g1 j = if decide (cell g j ∈ (Some <$> dead)) then None else col g j) /\
    (forall k grp, k ∉ dead -> live g k = Some grp -> exists grp', live g1 k = Some grp' /\ same_shape grp grp') /\
    (forall x, rem_of removed' x + N.of_nat (icount 19 (col g1) x) =
               rem_of removed x + N.of_nat (icount 19 (col g) x))%N.
Proof.
  induction dead as [|d dead IH]; intros g removed ko W Hnd Hd.
  - exists g, removed, ko. cbn [foldM fmap list_fmap]. split; [reflexivity|]. split; [exact W|]. split; [reflexivity|].
    split; [intros j; destruct (decide (cell g j ∈ [])) as [D|D]; [apply elem_of_nil in D; destruct D|reflexivity]|].
    split; [|intros x; reflexivity]. intros k grp _ H; exists grp; split; [exact H|repeat split].
  - apply NoDup_cons in Hnd as [Hdn Hnd]. cbn [foldM].
    destruct (Hd d) as (grp & Hg); [left|].
    rewrite (chain_at_live _ _ _ Hg). cbn [bind].
    destruct (one_to_2dim_any (gsize g) (g_origin grp)) as (q & Eq); [rewrite (awf_size s g W); exact (awf_s s g W)|].
    rewrite Eq. cbn [bind].
    set (ko1 := if (g_num_stones grp =? 1)%nat && only then Some q else ko).
    match goal with |- context [if ?b then Ok ?X else Ok ko] =>
      replace (if b then Ok X else Ok ko) with (Ok ko1)
        by (unfold ko1; destruct ((g_num_stones grp =? 1)%nat && only); reflexivity) end.
    cbn [bind].
    destruct (remove_any s g d grp W Hg) as (g0 & E0 & W0 & L0 & C0 & Col0 & K0 & N0 & V0).
    rewrite E0. cbn [bind].
    set (r1 := match g_color grp with
               | White => (fst removed + N.of_nat (g_num_stones grp), snd removed)%N
               | Black => (fst removed, snd removed + N.of_nat (g_num_stones grp))%N end).
    destruct (IH g0 r1 ko1 W0 Hnd) as (g1 & r' & ko' & E1 & W1 & L1 & Col1 & V1 & R1).
    { intros k Hk. destruct (Hd k) as (gk & Hgk); [right; exact Hk|].
      destruct (V0 k gk) as (gk' & Hgk' & _); [intros ->; contradiction|exact Hgk|]. eauto. }
    exists g1, r', ko'. split; [exact E1|]. split; [exact W1|]. split; [congruence|].
    assert (Hdec : forall j, (cell g0 j ∈ (Some <$> dead) \/ cell g j = Some d) <-> cell g j ∈ (Some <$> (d :: dead))).
    { intros j. rewrite fmap_cons, elem_of_cons, C0. destruct (decide (cell g j = Some d)) as [D|D]; [tauto|].
      tauto. }
    split; [|split].
    + intros j. rewrite Col1. destruct (decide (cell g j ∈ Some <$> d :: dead)) as [D|D];
        rewrite <- Hdec in D; destruct (decide (cell g0 j ∈ Some <$> dead)) as [D'|D']; try tauto.
      * rewrite Col0. destruct (decide (cell g j = Some d)); tauto.
      * rewrite Col0. destruct (decide (cell g j = Some d)); tauto.
    + intros k gk Hk Hgk. apply not_elem_of_cons in Hk as [H1 H2]. destruct (V0 k gk H1 Hgk) as (gk0 & Hgk0 & S0).
      destruct (V1 k gk0 H2 Hgk0) as (gk1 & Hgk1 & S1). exists gk1. split; [exact Hgk1|].
      destruct S0 as (?&?&?&?), S1 as (?&?&?&?). repeat split; congruence.
    + intros x. rewrite R1. rewrite (remove_count_any s g g0 d grp x W Hg Col0).
      unfold r1, rem_of. destruct x, (g_color grp); cbn [decide]; repeat destruct (decide _); try congruence; cbn [fst snd]; lia.
Qed.

Lemma captured_any s g suicide dead u gu :
  awf s g -> NoDup dead -> live g u = Some gu ->
  (forall k, k ∈ dead -> exists grp, live g k = Some grp /\ g_color grp = opp (g_color gu)) ->
  exists g' removed ko,
    remove_captured_stones_aux false g suicide dead u = Ok (g', removed, ko) /\
    awf s g' /\ length (chains g') = length (chains g) /\
    (forall j, col g' j = col g j \/ col g' j = None) /\
    (suicide = false -> forall j, col g j = Some (g_color gu) -> col g' j = col g j) /\
    (forall x, rem_of removed x + N.of_nat (icount 19 (col g') x) = N.of_nat (icount 19 (col g) x))%N.
Proof.
  intros W Hnd Hu Hd.
  assert (Hud : u ∉ dead).
  { intros H. destruct (Hd u H) as (gx & Hx & Hcx). destruct (opp_ne (g_color gu)). congruence. }
  unfold remove_captured_stones_aux.
  destruct (captured_loop_any s (length dead =? 1)%nat dead g (0%N, 0%N) None W Hnd)
    as (g1 & r1 & ko1 & E1 & W1 & L1 & Col1 & V1 & R1).
  { intros k Hk. destruct (Hd k Hk) as (gk & ? & _). eauto. }
  match goal with |- context [foldM ?F dead ?s0] => replace (foldM F dead s0) with (Ok (g1, r1, ko1)) by (symmetry; exact E1) end.
  cbn [bind]. destruct (V1 u gu Hud Hu) as (grp1 & Hg1 & Hsh). rewrite (chain_at_live _ _ _ Hg1). cbn [bind].
  assert (Hkeep : forall j, col g j = Some (g_color gu) -> col g1 j = col g j).
  { intros j Hj. rewrite Col1. destruct (decide _) as [D|D]; [|reflexivity]. exfalso.
    apply elem_of_list_fmap in D as (k & Ek & Hk). destruct (Hd k Hk) as (gk & Hgk & Hck).
    unfold col in Hj. rewrite Ek, Hgk in Hj. destruct (opp_ne (g_color gu)). congruence. }
  destruct (suicide && is_dead grp1) eqn:Es.
  - destruct (remove_any s g1 u grp1 W1 Hg1) as (g2 & E2 & W2 & L2 & C2 & Col2 & K2' & N2 & _).
    rewrite E2. cbn [bind]. eexists g2, _, None. split; [reflexivity|].
    split; [exact W2|]. split; [congruence|]. split; [|split].
    + intros j. rewrite Col2. destruct (decide _); [right; reflexivity|]. rewrite Col1. destruct (decide _); auto.
    + intros ->. discriminate.
    + intros x. specialize (R1 x). rewrite (remove_count_any s g1 g2 u grp1 x W1 Hg1 Col2) in R1.
      unfold rem_of in *. destruct x, (g_color grp1); repeat destruct (decide _); try congruence; cbn [fst snd] in *; lia.
  - exists g1, r1, ko1. split; [reflexivity|]. split; [exact W1|]. split; [exact L1|]. split; [|split].
    + intros j. rewrite Col1. destruct (decide _); auto.
    + intros _. exact Hkeep.
    + intros x. rewrite R1. unfold rem_of. destruct x; reflexivity.
Qed.
