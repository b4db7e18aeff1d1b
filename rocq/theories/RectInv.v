(** The invariant of boards whose width divides their height and its
    preservation by a push; [Inv.v] without the restriction to squares. *)
From stdpp Require Import relations.
From Verif Require Import Goban BitsetFacts CoordFacts Struct Push Inv RectCoord.
From Coq Require Import Lia.

Ltac side := first [assumption | lia | eapply vi_361; eassumption].

(** one step along a group *)
Definition rgstep (n : size_t) (g : goban) (k a b : nat) : Prop :=
  b ∈ rnb n a /\ cell g a = Some k /\ cell g b = Some k.

Record rwf (n : size_t) (g : goban) : Prop := rmkWf {
  rwf_0 : wf0 g;
  rwf_n : fits n;
  rwf_size : gsize g = n;
  rwf_on : forall i k, cell g i = Some k -> vi n i;
  rwf_lib : forall k grp j, live g k = Some grp ->
     lbit (g_liberties grp) j = true <-> cell g j = None /\ exists x, cell g x = Some k /\ j ∈ rnb n x;
  rwf_max : forall i j k k', j ∈ rnb n i -> cell g i = Some k -> cell g j = Some k' ->
     col g i = col g j -> k = k';
  rwf_conn : forall i j k, cell g i = Some k -> cell g j = Some k -> rtc (rgstep n g k) i j;
  rwf_hash : zobrist_hash g = hash_of (col g)
}.

Lemma rcol_cell n g i k : rwf n g -> cell g i = Some k ->
  exists grp, live g k = Some grp /\ col g i = Some (g_color grp).
Proof.
  intros W Hi. destruct (wf0_cell g (rwf_0 n g W) i k Hi) as [grp Hk]. exists grp.
  split; [exact Hk|]. unfold col. rewrite Hi, Hk. reflexivity.
Qed.

Lemma rcol_None n g i : rwf n g -> col g i = None <-> cell g i = None.
Proof.
  intros W. split.
  - intros H. destruct (cell g i) as [k|] eqn:E; [|reflexivity].
    destruct (rcol_cell n g i k W E) as (grp & _ & Hc). congruence.
  - intros H. unfold col. rewrite H. reflexivity.
Qed.

Lemma rgstep_sym n g k a b : rwf n g -> rgstep n g k a b -> rgstep n g k b a.
Proof.
  intros W (H1 & H2 & H3). repeat split; try assumption.
  apply rnb_sym; [exact (rwf_n n g W)| |exact H1]. eapply rwf_on; eassumption.
Qed.

(** every live group has a stone *)
Lemma rlive_stone n g k grp : rwf n g -> live g k = Some grp -> cell g (g_origin grp) = Some k.
Proof.
  intros W Hk. destruct (wf0_chain g (rwf_0 n g W) k grp Hk) as [_ (l & R & Hm)].
  apply Hm. pose proof (ring_head _ _ _ R) as H. destruct l as [|x l]; [discriminate|]. cbn in H.
  injection H as ->. left.
Qed.

(** exactly one group of colour [c] touches [i] *)
Definition rone_same (n : size_t) (g : goban) (i : nat) (c : color) : Prop :=
  exists j, j ∈ rnb n i /\ col g j = Some c /\
    forall j', j' ∈ rnb n i -> col g j' = Some c -> cell g j' = cell g j.

Theorem rpush_spec dbg n g r cc c :
  rwf n g -> (r < fst n)%nat -> (cc < snd n)%nat ->
  let i := (r * fst n + cc)%nat in
  cell g i = None ->
  (push_wth_feedback dbg g (r, cc) c = Panic /\ (N.of_nat (length (chains g)) = 65535)%N /\
   ~ rone_same n g i c) \/
  exists g' dead u,
    push_wth_feedback dbg g (r, cc) c = Ok (g', dead, u) /\
    rwf n g' /\
    (rone_same n g i c /\ length (chains g') = length (chains g) \/
     ~ rone_same n g i c /\ length (chains g') = S (length (chains g))) /\
    cell g' i = Some u /\
    (forall k, (k < length (chains g))%nat -> live g k = None -> live g' k = None) /\
    (forall j, col g' j = if decide (j = i) then Some c else col g j) /\
    (forall j, col g j = Some (opp c) -> cell g' j = cell g j) /\
    (forall k grp, live g k = Some grp -> g_color grp = opp c -> exists grp',
        live g' k = Some grp' /\ same_shape grp grp') /\
    NoDup dead /\ (length dead <= 4)%nat /\
    (forall k, k ∈ dead <-> exists grp, live g' k = Some grp /\ g_color grp = opp c /\
        (forall j, lbit (g_liberties grp) j = false) /\ exists j, j ∈ rnb n i /\ cell g' j = Some k).
Proof.
  intros W Hr Hcc i Hi. pose proof (rwf_n n g W) as Hn. pose proof (rwf_0 n g W) as W0.
  assert (Hin : vi n i) by (apply vi_idx; assumption).
  assert (Hi361 : (i < 361)%nat) by (eapply vi_361; eassumption).
  unfold push_wth_feedback. rewrite (rwf_size n g W). change (two_to_1dim n (r, cc)) with i.
  rewrite neighbors_idx_rect by assumption. cbn [bind].
  assert (Hnb : forall j, j ∈ rnb n i -> (j < 361)%nat).
  { intros j Hj. eapply vi_361; [exact Hn|]. eapply rnb_vi; eassumption. }
  destruct (classify_spec g c (rnb n i) W0 Hnb (rnb_length n i))
    as (same & oppo & libs & Ec & Nd1 & Nd2 & L1 & L2 & Hsame & Hoppo & Hlibs).
  rewrite Ec. cbn [bind].
  (* i is a liberty of every neighbouring group *)
  assert (Hlib_i : forall j k grp, j ∈ rnb n i -> cell g j = Some k -> live g k = Some grp ->
                     lbit (g_liberties grp) i = true).
  { intros j k grp Hj Hc Hk. apply (rwf_lib n g W k grp i Hk). split; [exact Hi|].
    exists j. split; [exact Hc|]. apply rnb_sym; [assumption|side|exact Hj]. }
  destruct (remove_liberties_gen dbg g oppo i [] W0 Hi361 Nd2) as (cs1 & dead & Erl & Lcs & W1 & V1 & V2 & dd & Edd & Ndd & Hdd).
  { cbn. exact L2. }
  { intros k Hk. apply Hoppo in Hk as (j & grp & Hj & Hc & Hg & _). exists grp. split; [exact Hg|].
    eapply Hlib_i; eassumption. }
  fold (remove_liberties dbg (chains g) oppo i) in Erl. rewrite Erl. cbn [bind].
  cbn [app] in Edd. subst dd. set (g1 := with_chains g cs1) in *.
  assert (Hcell1 : forall j, cell g1 j = cell g j) by reflexivity.
  assert (Hdisj : forall k, k ∈ same -> k ∉ oppo).
  { intros k H1 H2. apply Hsame in H1 as (j1 & gr1 & _ & _ & Hl1 & Hc1).
    apply Hoppo in H2 as (j2 & gr2 & _ & _ & Hl2 & Hc2).
    assert (gr1 = gr2) by congruence. subst. destruct (opp_ne (g_color gr2)). congruence. }
  assert (Hlive_same : forall k, k ∈ same -> exists gk, live g k = Some gk /\ live g1 k = Some gk /\
             g_color gk = c /\ lbit (g_liberties gk) i = true).
  { intros k Hk. pose proof (Hdisj k Hk) as Ho. apply Hsame in Hk as (j & gk & Hj & Hc & Hg & Hcol).
    exists gk. split; [exact Hg|]. split; [rewrite V1; assumption|]. split; [exact Hcol|].
    eapply Hlib_i; eassumption. }
  assert (Hone : rone_same n g i c <-> length same = 1%nat).
  { split.
    - intros (j & Hj & Hcj & Huniq). apply col_Some_inv in Hcj as (k & gk & H1 & H2 & H3).
      assert (Hk : k ∈ same) by (apply Hsame; exists j, gk; tauto).
      assert (Hall : forall k', k' ∈ same -> k' = k).
      { intros k' Hk'. apply Hsame in Hk' as (j' & gk' & Hj' & Hc' & Hg' & Hcl'). specialize (Huniq j' Hj').
        rewrite Hc', H1 in Huniq. assert (Some k' = Some k); [|congruence]. apply Huniq. unfold col. rewrite Hc', Hg', Hcl'. reflexivity. }
      destruct same as [|a [|b l]]; [apply elem_of_nil in Hk; destruct Hk|reflexivity|]. exfalso.
      apply NoDup_cons in Nd1 as [Nd1 _]. apply Nd1. rewrite (Hall a), (Hall b); [left|right; left|left].
    - intros H. destruct same as [|k [|? ?]]; try discriminate.
      destruct (proj1 (Hsame k) ltac:(left)) as (j & gk & Hj & Hc & Hg & Hcl). exists j. split; [exact Hj|].
      split; [unfold col; rewrite Hc, Hg, Hcl; reflexivity|].
      intros j' Hj' Hcj'. apply col_Some_inv in Hcj' as (k' & gk' & H1 & H2 & H3).
      assert (Hk' : k' ∈ [k]) by (apply Hsame; exists j', gk'; tauto). apply elem_of_list_singleton in Hk'. congruence. }
  destruct (place_spec dbg g1 i c same libs W1 Hi361) as [[E F]|(g' & u & gu & E & W' & Sz & Z & L & Hu & C' & V' & Colu & Bu)].
  { exact Hi. }
  { exact Nd1. }
  { intros k Hk. destruct (Hlive_same k Hk) as (gk & ? & ? & ? & ?). exists gk. auto. }
  { intros j Hj. apply Hlibs in Hj as [Hj _]. apply Hnb, Hj. }
  { intros H. apply Hlibs in H as [H _]. revert H. apply rnb_irrefl; assumption. }
  { left. destruct F as [F HF]. rewrite E. split; [reflexivity|]. cbn in F. rewrite Lcs in F. split; [exact F|].
    intros H. apply Hone in H. contradiction. }
  right. rewrite E. cbn [bind]. rewrite index_zobrist_ok by exact Hi361. cbn [bind].
  set (g2 := with_hash g' (N.lxor (zobrist_hash g') (zval i c))).
  assert (W2 : wf0 g2) by (destruct W'; constructor; assumption).
  replace (if dbg then check_integrity_all dbg g2 else Ok tt) with (Ok tt : res unit)
    by (destruct dbg; [rewrite (integrity_ok true g2 W2)|]; reflexivity).
  cbn [bind]. exists g2, dead, u. split; [reflexivity|].
  assert (L' : rone_same n g i c /\ length (chains g') = length (chains g) \/
     ~ rone_same n g i c /\ length (chains g') = S (length (chains g))).
  { change (chains g1) with cs1 in L. rewrite Lcs in L. destruct (Nat.eqb_spec (length same) 1) as [D|D].
    - left. split; [apply Hone, D|exact L].
    - right. split; [|exact L]. intros H. apply Hone in H. contradiction. }
  change (chains g1) with cs1 in Hu. rewrite Lcs in Hu.
  (* no group of the old board other than a joined one is numbered u *)
  assert (Hu_fresh : forall j k, cell g j = Some k -> k ∉ same -> k <> u).
  { intros j k Hj Hk ->. destruct Hu as [->|Hu]; [|contradiction].
    destruct (wf0_cell g W0 j _ Hj) as [x Hx]. apply live_lt in Hx. lia. }
  assert (Hcell2 : forall j, cell g2 j = if decide (j = i \/ cell g j ∈ (Some <$> same)) then Some u else cell g j).
  { intros j. apply C'. }
  assert (Hnew : forall j, cell g2 j = Some u <-> j = i \/ exists k, k ∈ same /\ cell g j = Some k).
  { intros j. rewrite Hcell2. destruct (decide _) as [D|D].
    - split; [|tauto]. intros _. destruct D as [D|D]; [tauto|]. right.
      apply elem_of_list_fmap in D as (k & E1 & E2). exists k. tauto.
    - split.
      + intros H. exfalso. destruct (decide (u ∈ same)) as [Hus|Hus].
        * apply D. right. rewrite H. apply list_In_mapsome, Hus.
        * revert Hus. intros Hus. apply (Hu_fresh j u H Hus). reflexivity.
      + intros [->|(k & Hk & Hj)]; [tauto|]. exfalso. apply D. right. rewrite Hj.
        apply list_In_mapsome, Hk. }
  assert (Hold : forall j k, k <> u -> cell g2 j = Some k <-> j <> i /\ k ∉ same /\ cell g j = Some k).
  { intros j k Hku. rewrite Hcell2. destruct (decide _) as [D|D].
    - split; [congruence|]. intros (H1 & H2 & H3). destruct D as [D|D]; [contradiction|].
      rewrite H3 in D. apply list_In_mapsome in D. contradiction.
    - split; [|tauto]. intros H. split; [intros ->; tauto|]. split; [|exact H]. intros Hs. apply D. right.
      rewrite H. apply list_In_mapsome, Hs. }
  assert (Hnone : forall j, cell g2 j = None <-> j <> i /\ cell g j = None).
  { intros j. rewrite Hcell2. destruct (decide _) as [D|D].
    - split; [discriminate|]. intros [H1 H2]. destruct D as [D|D]; [contradiction|].
      rewrite H2 in D. apply none_mapsome in D. destruct D.
    - split; [intros H; split; [intros ->; tauto|exact H]|tauto]. }
  assert (Hlive2 : forall k, live g2 k = if decide (k = u) then Some gu
                     else if decide (k ∈ same) then None else live g1 k) by (exact V').
  (* colours *)
  assert (Hcol2 : forall j, col g2 j = if decide (j = i) then Some c else col g j).
  { intros j. unfold col at 1. destruct (cell g2 j) as [k|] eqn:Ej.
    - rewrite Hlive2. destruct (decide (k = u)) as [->|Hku].
      + rewrite Colu. apply Hnew in Ej as [->|(k & Hk & Hj)].
        * destruct (decide (i = i)); [reflexivity|contradiction].
        * destruct (decide (j = i)) as [->|]; [reflexivity|].
          destruct (Hlive_same k Hk) as (gk & Hg & _ & Hcl & _). unfold col. rewrite Hj, Hg, Hcl. reflexivity.
      + apply Hold in Ej as (H1 & H2 & H3); [|exact Hku].
        destruct (decide (j = i)); [contradiction|]. destruct (decide (k ∈ same)); [contradiction|].
        destruct (wf0_cell g W0 j k H3) as [gk Hg]. unfold col. rewrite H3, Hg.
        destruct (decide (k ∈ oppo)) as [Ho|Ho].
        * destruct (V2 k gk Ho Hg) as (gk' & Hg' & (Hsh & _) & _). rewrite Hg'. congruence.
        * rewrite (V1 k Ho), Hg. reflexivity.
    - apply Hnone in Ej as [H1 H2]. destruct (decide (j = i)); [contradiction|]. unfold col. rewrite H2. reflexivity. }
  (* groups of the other colour *)
  assert (Hopp_live : forall k gk, live g k = Some gk -> g_color gk = opp c -> k <> u /\ k ∉ same).
  { intros k gk Hk Hcl. assert (Hs : k ∉ same).
    { intros Hs. destruct (Hlive_same k Hs) as (gx & Hx & _ & Hcx & _).
      assert (gx = gk) by congruence. subst. destruct (opp_ne (g_color gk)). congruence. }
    split; [|exact Hs]. apply (Hu_fresh (g_origin gk) k); [|exact Hs]. eapply rlive_stone; eassumption. }
  assert (Wf2 : rwf n g2).
  { constructor.
    - exact W2.
    - exact Hn.
    - change (gsize g2) with (gsize g'). rewrite Sz. apply (rwf_size n g W).
    - intros j k Hj. rewrite Hcell2 in Hj. destruct (decide _) as [[->|D]|D].
      + exact Hin.
      + apply elem_of_list_fmap in D as (k' & E1 & _). eapply rwf_on; eassumption.
      + eapply rwf_on; eassumption.
    - (* liberties *)
      intros k grp j Hk. rewrite Hlive2 in Hk. destruct (decide (k = u)) as [->|Hku].
      + injection Hk as <-. rewrite Bu, Hnone. split.
        * intros (Hji & [Hl|(k & gk & Hks & Hg & Hb)]).
          -- apply Hlibs in Hl as [H1 H2]. split; [tauto|]. exists i. split; [apply Hnew; tauto|exact H1].
          -- destruct (Hlive_same k Hks) as (gx & Hx & Hx1 & _). assert (gx = gk) by congruence. subst gx.
             apply (rwf_lib n g W k gk j Hx) in Hb as (H1 & x & H2 & H3). split; [tauto|].
             exists x. split; [|exact H3]. apply Hnew. right. exists k. tauto.
        * intros ((Hji & Hj) & x & Hx & Hjx). split; [exact Hji|].
          apply Hnew in Hx as [->|(k & Hks & Hx)].
          -- left. apply Hlibs. tauto.
          -- right. destruct (Hlive_same k Hks) as (gk & Hg & Hg1 & _). exists k, gk.
             split; [exact Hks|]. split; [exact Hg1|]. apply (rwf_lib n g W k gk j Hg). split; [exact Hj|].
             exists x. tauto.
      + destruct (decide (k ∈ same)) as [|Hks]; [discriminate|].
        assert (Hx : (exists x, cell g2 x = Some k /\ j ∈ rnb n x) <-> (exists x, cell g x = Some k /\ j ∈ rnb n x)).
        { split; intros (x & H1 & H2); exists x; (split; [|exact H2]).
          - apply Hold in H1; tauto.
          - apply Hold; [exact Hku|]. split; [intros ->; congruence|tauto]. }
        rewrite Hx, Hnone. destruct (decide (k ∈ oppo)) as [Ho|Ho].
        * pose proof Ho as Ho'. apply Hoppo in Ho' as (j0 & gk & _ & _ & Hg & _).
          destruct (V2 k gk Ho Hg) as (gk' & Hg' & _ & Hb). assert (gk' = grp) by congruence. subst gk'.
          rewrite Hb. destruct (Nat.eqb_spec j i) as [->|Hji]; [intuition congruence|].
          rewrite (rwf_lib n g W k gk j Hg). tauto.
        * rewrite (V1 k Ho) in Hk. rewrite (rwf_lib n g W k grp j Hk). split; [|tauto].
          intros (H1 & x & H2 & H3). split; [|eauto]. split; [|exact H1]. intros ->.
          assert (Hxi : x ∈ rnb n i).
          { apply rnb_sym; [assumption| |exact H3]. eapply rwf_on; eassumption. }
          destruct (color_eqb_spec (g_color grp) c) as [Ecc|Ecc].
          -- apply Hks, Hsame. exists x, grp. tauto.
          -- apply Ho, Hoppo. exists x, grp. apply ne_opp in Ecc. tauto.
    - (* maximality *)
      assert (Hside : forall x j k', x ∈ rnb n j \/ j ∈ rnb n x -> cell g2 x = Some u -> cell g2 j = Some k' -> k' <> u ->
                 col g2 x = col g2 j -> False).
      { intros x j k' Hxj Hx Hj Hk' Hcc'. apply Hold in Hj as (Hji & Hk's & Hj); [|exact Hk'].
        assert (Hjn : vi n j) by (eapply rwf_on; eassumption).
        assert (Hxn : vi n x).
        { apply Hnew in Hx as [->|(k & _ & Hx)]; [exact Hin|]. eapply rwf_on; eassumption. }
        assert (Hjx : j ∈ rnb n x).
        { destruct Hxj as [Hxj|Hxj]; [|exact Hxj]. apply rnb_sym; [assumption|side|exact Hxj]. }
        assert (Hcj : col g j = Some c).
        { assert (Hx2 : col g2 x = Some c).
          { rewrite Hcol2. destruct (decide (x = i)) as [->|]; [reflexivity|].
            apply Hnew in Hx as [->|(k & Hk & Hx)]; [contradiction|].
            destruct (Hlive_same k Hk) as (gk & Hg & _ & Hcl & _). unfold col. rewrite Hx, Hg, Hcl. reflexivity. }
          rewrite Hx2 in Hcc'. rewrite Hcol2 in Hcc'. destruct (decide (j = i)); [contradiction|]. congruence. }
        apply Hk's. apply Hnew in Hx as [->|(k & Hk & Hx)].
        - apply Hsame. destruct (rcol_cell n g j k' W Hj) as (gk & Hg & Hcl). exists j, gk.
          split; [exact Hjx|]. split; [exact Hj|]. split; [exact Hg|]. congruence.
        - replace k' with k; [exact Hk|]. apply (rwf_max n g W x j); [exact Hjx|exact Hx|exact Hj|].
          destruct (Hlive_same k Hk) as (gk & Hg & _ & Hcl & _). unfold col at 1. rewrite Hx, Hg, Hcl. congruence. }
      intros x j k k' Hxj Hx Hj Hcc'.
      destruct (decide (k = u)) as [->|Hku]; destruct (decide (k' = u)) as [->|Hk'u]; try reflexivity.
      + exfalso. eapply (Hside x j k'); eauto.
      + exfalso. eapply (Hside j x k); eauto.
      + apply Hold in Hx as (H1 & H2 & H3); [|exact Hku]. apply Hold in Hj as (H4 & H5 & H6); [|exact Hk'u].
        apply (rwf_max n g W x j); [exact Hxj|exact H3|exact H6|].
        rewrite !Hcol2 in Hcc'. destruct (decide (x = i)); [contradiction|]. destruct (decide (j = i)); [contradiction|].
        exact Hcc'.
    - (* connectedness *)
      assert (Hlift : forall k a b, (k <> u /\ k ∉ same -> rtc (rgstep n g k) a b -> rtc (rgstep n g2 k) a b) /\
                                    (k ∈ same -> rtc (rgstep n g k) a b -> rtc (rgstep n g2 u) a b)).
      { intros k a b. split.
        - intros [Hku Hks] H. induction H as [|a b d (H1 & H2 & H3) _ IH]; [apply rtc_refl|].
          eapply rtc_l; [|exact IH]. split; [exact H1|].
          split; (apply Hold; [exact Hku|]; split; [intros ->; congruence|tauto]).
        - intros Hks H. induction H as [|a b d (H1 & H2 & H3) _ IH]; [apply rtc_refl|].
          eapply rtc_l; [|exact IH]. split; [exact H1|]. split; apply Hnew; right; exists k; tauto. }
      assert (Hto_i : forall a, cell g2 a = Some u -> rtc (rgstep n g2 u) a i).
      { intros a Ha. apply Hnew in Ha as [->|(k & Hk & Ha)]; [apply rtc_refl|].
        pose proof Hk as Hk'. apply Hsame in Hk' as (j & gk & Hj & Hcj & _ & _).
        eapply rtc_r.
        - apply (proj2 (Hlift k a j) Hk). apply (rwf_conn n g W); assumption.
        - split; [apply rnb_sym; [assumption|side|exact Hj]|]. split; apply Hnew; [right; exists k; tauto|tauto]. }
      assert (Hfrom_i : forall a, cell g2 a = Some u -> rtc (rgstep n g2 u) i a).
      { intros a Ha. pose proof Ha as Ha'. apply Hnew in Ha as [->|(k & Hk & Ha)]; [apply rtc_refl|].
        pose proof Hk as Hk'. apply Hsame in Hk' as (j & gk & Hj & Hcj & _ & _).
        eapply rtc_l.
        - split; [exact Hj|]. split; apply Hnew; [tauto|right; exists k; tauto].
        - apply (proj2 (Hlift k j a) Hk). apply (rwf_conn n g W); assumption. }
      intros a b k Ha Hb. destruct (decide (k = u)) as [->|Hku].
      + etransitivity; [apply Hto_i, Ha|apply Hfrom_i, Hb].
      + apply Hold in Ha as (H1 & H2 & H3); [|exact Hku]. apply Hold in Hb as (H4 & H5 & H6); [|exact Hku].
        apply (proj1 (Hlift k a b)); [tauto|]. apply (rwf_conn n g W); assumption.
    - (* hash *)
      cbn [zobrist_hash g2 with_hash]. rewrite Z. change (zobrist_hash g1) with (zobrist_hash g).
      rewrite (rwf_hash n g W). symmetry. apply hash_add.
      + exact Hi361.
      + unfold col. rewrite Hi. reflexivity.
      + rewrite Hcol2. destruct (decide (i = i)); [reflexivity|contradiction].
      + intros j Hj. rewrite Hcol2. destruct (decide (j = i)); [contradiction|reflexivity]. }
  split; [exact Wf2|]. split; [exact L'|].
  split; [apply Hnew; tauto|].
  split. { intros k Hkl Hk. rewrite Hlive2. destruct (decide (k = u)) as [->|].
    - destruct Hu as [->|Hu]; [lia|]. destruct (Hlive_same u Hu) as (gk & Hx & _). congruence.
    - destruct (decide (k ∈ same)); [reflexivity|]. rewrite V1; [exact Hk|].
      intros Ho. apply Hoppo in Ho as (j & gk & _ & _ & Hx & _). congruence. }
  split; [exact Hcol2|].
  assert (HoppV : forall k gk, live g k = Some gk -> g_color gk = opp c -> exists gk',
     live g2 k = Some gk' /\ same_shape gk gk' /\ (k ∈ oppo -> forall j, lbit (g_liberties gk') j = if (j =? i)%nat then false else lbit (g_liberties gk) j)).
  { intros k gk Hk Hcl. destruct (Hopp_live k gk Hk Hcl) as [Hku Hks]. rewrite Hlive2.
    destruct (decide (k = u)); [contradiction|]. destruct (decide (k ∈ same)); [contradiction|].
    destruct (decide (k ∈ oppo)) as [Ho|Ho].
    - destruct (V2 k gk Ho Hk) as (gk' & Hg' & Hsh & Hb). exists gk'. tauto.
    - rewrite (V1 k Ho). exists gk. split; [exact Hk|]. split; [repeat split|contradiction]. }
  assert (Hcell_opp : forall j k gk, cell g j = Some k -> live g k = Some gk -> g_color gk = opp c -> cell g2 j = Some k).
  { intros j k gk Hj Hk Hcl. destruct (Hopp_live k gk Hk Hcl) as [Hku Hks]. apply Hold; [exact Hku|].
    split; [intros ->; congruence|tauto]. }
  split; [|split; [|split; [exact Ndd|split]]].
  - intros j Hj. apply col_Some_inv in Hj as (k & gk & H1 & H2 & H3). rewrite H1. eapply Hcell_opp; eassumption.
  - intros k grp Hk Hcl. destruct (HoppV k grp Hk Hcl) as (gk' & H1 & H2 & _). eauto.
  - transitivity (length oppo); [|exact L2]. apply submseteq_length, NoDup_submseteq; [exact Ndd|].
    intros k Hk. apply Hdd in Hk. tauto.
  - intros k. rewrite Hdd. split.
    + intros (Ho & gk & Hg & Hb). pose proof Ho as Ho'. apply Hoppo in Ho' as (j & gx & Hj & Hc & Hx & Hcl).
      assert (gx = gk) by congruence. subst gx.
      destruct (HoppV k gk Hg Hcl) as (gk' & Hg' & (Hsh & _) & Hb'). exists gk'. split; [exact Hg'|].
      split; [congruence|]. split.
      * intros j'. rewrite (Hb' Ho). destruct (Nat.eqb_spec j' i); [reflexivity|].
        destruct (lbit (g_liberties gk) j') eqn:Eb; [|reflexivity]. apply Hb in Eb. contradiction.
      * exists j. split; [exact Hj|]. eapply Hcell_opp; eassumption.
    + intros (gk' & Hg' & Hcl & Hb & j & Hj & Hc).
      assert (Hku : k <> u).
      { intros ->. rewrite Hlive2 in Hg'. destruct (decide (u = u)); [|contradiction].
        assert (gu = gk') by congruence. subst gk'. destruct (opp_ne c). congruence. }
      apply Hold in Hc as (H1 & H2 & H3); [|exact Hku].
      destruct (wf0_cell g W0 j k H3) as [gk Hg].
      assert (Hclg : g_color gk = opp c).
      { destruct (color_eqb_spec (g_color gk) c) as [Ex|Ex]; [|apply ne_opp, Ex].
        exfalso. apply H2, Hsame. exists j, gk. tauto. }
      assert (Ho : k ∈ oppo) by (apply Hoppo; exists j, gk; tauto).
      split; [exact Ho|]. exists gk. split; [exact Hg|].
      destruct (HoppV k gk Hg Hclg) as (gk2 & Hg2 & _ & Hb'). assert (gk2 = gk') by congruence. subst gk2.
      specialize (Hb' Ho). intros j'. split.
      * intros H. specialize (Hb' j'). rewrite Hb in Hb'. destruct (Nat.eqb_spec j' i); [assumption|congruence].
      * intros ->. eapply Hlib_i; eassumption.
Qed.

