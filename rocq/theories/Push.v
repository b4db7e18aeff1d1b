(** Effect of [push_wth_feedback] on group numbers, colours and liberties. *)
From Verif Require Import Goban BitsetFacts CoordFacts Struct.
From Coq Require Import Lia.

(** colour standing at an index *)
Definition col (g : goban) (i : nat) : option color :=
  match cell g i with
  | Some k => match live g k with Some grp => Some (g_color grp) | None => None end
  | None => None
  end.

Lemma color_eqb_spec a b : reflect (a = b) (color_eqb a b).
Proof. destruct a, b; constructor; congruence. Qed.

Lemma color_eqb_refl a : color_eqb a a = true.
Proof. destruct a; reflexivity. Qed.

Lemma opp_ne c : opp c <> c.
Proof. destruct c; discriminate. Qed.

Lemma opp_invol c : opp (opp c) = c.
Proof. destruct c; reflexivity. Qed.

Lemma ne_opp a c : a <> c <-> a = opp c.
Proof. destruct a, c; cbn; intuition congruence. Qed.

Lemma mem_spec k l : mem k l = true <-> k ∈ l.
Proof.
  unfold mem. rewrite existsb_exists. split.
  - intros (x & Hx & E). apply Nat.eqb_eq in E. subst. apply elem_of_list_In, Hx.
  - intros H. exists k. split; [apply elem_of_list_In, H|apply Nat.eqb_refl].
Qed.

Lemma NoDup_snoc {A} (l : list A) x : NoDup l -> x ∉ l -> NoDup (l ++ [x]).
Proof.
  intros Hl Hx. apply NoDup_app. split; [exact Hl|]. split; [|apply NoDup_singleton].
  intros y Hy Hy'. apply elem_of_list_singleton in Hy'. subst. contradiction.
Qed.

Lemma av_push_ok {A} n (l : list A) x : (length l < n)%nat -> av_push n l x = Ok (l ++ [x]).
Proof. intros H. unfold av_push. destruct (Nat.ltb_spec (length l) n); [reflexivity|lia]. Qed.

(** loop of lines 164-180 *)
Lemma classify_gen g c nbs same oppo libs :
  wf0 g -> (forall j, j ∈ nbs -> (j < 361)%nat) ->
  NoDup same -> NoDup oppo ->
  (length same + length nbs <= 4)%nat -> (length oppo + length nbs <= 4)%nat ->
  (length libs + length nbs <= 4)%nat ->
  exists same' oppo' libs',
    foldM (fun '(same, oppo, libs) j =>
           let! cell := vget (board g) j in
           match cell with
           | Some k =>
               let! grp := chain_at (chains g) k in
               if color_eqb (g_color grp) c then
                 if mem k same then Ok (same, oppo, libs)
                 else let! same' := av_push 4 same k in Ok (same', oppo, libs)
               else
                 if mem k oppo then Ok (same, oppo, libs)
                 else let! oppo' := av_push 4 oppo k in Ok (same, oppo', libs)
           | None => let! libs' := av_push 4 libs j in Ok (same, oppo, libs')
           end) nbs (same, oppo, libs) = Ok (same', oppo', libs') /\
    NoDup same' /\ NoDup oppo' /\
    (length same' <= 4)%nat /\ (length oppo' <= 4)%nat /\
    (forall k, k ∈ same' <-> k ∈ same \/ exists j grp, j ∈ nbs /\ cell g j = Some k /\
                              live g k = Some grp /\ g_color grp = c) /\
    (forall k, k ∈ oppo' <-> k ∈ oppo \/ exists j grp, j ∈ nbs /\ cell g j = Some k /\
                              live g k = Some grp /\ g_color grp = opp c) /\
    (libs' = libs ++ List.filter (fun j => match cell g j with None => true | Some _ => false end) nbs).
Proof.
  intros W. revert same oppo libs. induction nbs as [|j nbs IH]; intros same oppo libs Hb Hs Ho L1 L2 L3.
  - exists same, oppo, libs. cbn in *. rewrite app_nil_r.
    split; [reflexivity|]. split; [exact Hs|]. split; [exact Ho|]. split; [lia|]. split; [lia|].
    split; [|split; [|reflexivity]]; intros k; (split; [tauto|]); intros [H|(x & gr & H & _)]; try tauto;
      apply elem_of_nil in H; destruct H.
  - cbn [foldM List.filter length] in *.
    rewrite vget_board by (rewrite (wf0_board g W); apply Hb; left). cbn [bind].
    assert (Hb' : forall j0, j0 ∈ nbs -> (j0 < 361)%nat) by (intros; apply Hb; right; assumption).
    destruct (cell g j) as [k|] eqn:Ej.
    + destruct (wf0_cell g W j k Ej) as [grp Hk]. rewrite (chain_at_live _ _ _ Hk). cbn [bind].
      destruct (color_eqb_spec (g_color grp) c) as [Ec|Ec].
      * assert (Hne : forall x, x ∈ oppo \/ (exists j0 grp0, j0 ∈ nbs /\ cell g j0 = Some x /\
                live g x = Some grp0 /\ g_color grp0 = opp c) <->
                x ∈ oppo \/ (exists j0 grp0, j0 ∈ j :: nbs /\ cell g j0 = Some x /\
                live g x = Some grp0 /\ g_color grp0 = opp c)).
        { intros x. split; (intros [H|(j0 & g0 & H1 & H2 & H3 & H4)]; [tauto|right]).
          - exists j0, g0. rewrite elem_of_cons. tauto.
          - apply elem_of_cons in H1 as [->|H1]; [|exists j0, g0; tauto].
            assert (x = k) by congruence. subst x. assert (g0 = grp) by congruence. subst g0.
            destruct (opp_ne c). congruence. }
        destruct (mem k same) eqn:Em.
        -- cbn [bind]. destruct (IH same oppo libs Hb' Hs Ho) as (s' & o' & l' & E & A1 & A2 & A3 & A4 & A5 & A6 & A7); [lia..|].
           exists s', o', l'. rewrite E. split; [reflexivity|]. do 4 (split; [assumption|]).
           split; [|split; [|exact A7]].
           ++ intros x. rewrite A5. split; (intros [H|(j0 & g0 & H1 & H2 & H3 & H4)]; [tauto|]).
              ** right. exists j0, g0. rewrite elem_of_cons. tauto.
              ** apply elem_of_cons in H1 as [->|H1]; [|right; exists j0, g0; tauto].
                 left. apply mem_spec. congruence.
           ++ intros x. rewrite A6. apply Hne.
        -- assert (Hnk : k ∉ same) by (intros Hx; apply mem_spec in Hx; congruence).
           rewrite (av_push_ok 4 same k) by lia. cbn [bind].
           destruct (IH (same ++ [k]) oppo libs Hb' (NoDup_snoc _ _ Hs Hnk) Ho)
             as (s' & o' & l' & E & A1 & A2 & A3 & A4 & A5 & A6 & A7); [rewrite ?app_length; cbn; lia..|].
           exists s', o', l'. rewrite E. split; [reflexivity|]. do 4 (split; [assumption|]).
           split; [|split; [|exact A7]].
           ++ intros x. rewrite A5, elem_of_app, elem_of_list_singleton.
              split; (intros [H'|(j0 & g0 & H1 & H2 & H3 & H4)]).
              ** destruct H' as [H'| ->]; [tauto|]. right. exists j, grp. rewrite elem_of_cons. tauto.
              ** right. exists j0, g0. rewrite elem_of_cons. tauto.
              ** tauto.
              ** apply elem_of_cons in H1 as [->|H1]; [|right; exists j0, g0; tauto].
                 left. right. congruence.
           ++ intros x. rewrite A6. apply Hne.
      * assert (Hne : forall x, x ∈ same \/ (exists j0 grp0, j0 ∈ nbs /\ cell g j0 = Some x /\
                live g x = Some grp0 /\ g_color grp0 = c) <->
                x ∈ same \/ (exists j0 grp0, j0 ∈ j :: nbs /\ cell g j0 = Some x /\
                live g x = Some grp0 /\ g_color grp0 = c)).
        { intros x. split; (intros [H|(j0 & g0 & H1 & H2 & H3 & H4)]; [tauto|right]).
          - exists j0, g0. rewrite elem_of_cons. tauto.
          - apply elem_of_cons in H1 as [->|H1]; [|exists j0, g0; tauto].
            assert (x = k) by congruence. subst x. assert (g0 = grp) by congruence. subst g0. congruence. }
        apply ne_opp in Ec.
        destruct (mem k oppo) eqn:Em.
        -- cbn [bind]. destruct (IH same oppo libs Hb' Hs Ho) as (s' & o' & l' & E & A1 & A2 & A3 & A4 & A5 & A6 & A7); [lia..|].
           exists s', o', l'. rewrite E. split; [reflexivity|]. do 4 (split; [assumption|]).
           split; [|split; [|exact A7]].
           ++ intros x. rewrite A5. apply Hne.
           ++ intros x. rewrite A6. split; (intros [H|(j0 & g0 & H1 & H2 & H3 & H4)]; [tauto|]).
              ** right. exists j0, g0. rewrite elem_of_cons. tauto.
              ** apply elem_of_cons in H1 as [->|H1]; [|right; exists j0, g0; tauto].
                 left. apply mem_spec. congruence.
        -- assert (Hnk : k ∉ oppo) by (intros Hx; apply mem_spec in Hx; congruence).
           rewrite (av_push_ok 4 oppo k) by lia. cbn [bind].
           destruct (IH same (oppo ++ [k]) libs Hb' Hs (NoDup_snoc _ _ Ho Hnk))
             as (s' & o' & l' & E & A1 & A2 & A3 & A4 & A5 & A6 & A7); [rewrite ?app_length; cbn; lia..|].
           exists s', o', l'. rewrite E. split; [reflexivity|]. do 4 (split; [assumption|]).
           split; [|split; [|exact A7]].
           ++ intros x. rewrite A5. apply Hne.
           ++ intros x. rewrite A6, elem_of_app, elem_of_list_singleton.
              split; (intros [H'|(j0 & g0 & H1 & H2 & H3 & H4)]).
              ** destruct H' as [H'| ->]; [tauto|]. right. exists j, grp. rewrite elem_of_cons. tauto.
              ** right. exists j0, g0. rewrite elem_of_cons. tauto.
              ** tauto.
              ** apply elem_of_cons in H1 as [->|H1]; [|right; exists j0, g0; tauto].
                 left. right. congruence.
    + rewrite (av_push_ok 4 libs j) by lia. cbn [bind].
      destruct (IH same oppo (libs ++ [j]) Hb' Hs Ho) as (s' & o' & l' & E & A1 & A2 & A3 & A4 & A5 & A6 & A7);
        [rewrite ?app_length; cbn; lia..|].
      exists s', o', l'. rewrite E. split; [reflexivity|]. do 4 (split; [assumption|]).
      rewrite <- app_assoc in A7. split; [|split; [|exact A7]]; intros x; rewrite ?A5, ?A6;
        (split; (intros [H'|(j0 & g0 & H1 & H2 & H3 & H4)]; [tauto|right]);
         [exists j0, g0; rewrite elem_of_cons; tauto|
          apply elem_of_cons in H1 as [->|H1]; [congruence|exists j0, g0; tauto]]).
Qed.

Lemma classify_spec g c nbs :
  wf0 g -> (forall j, j ∈ nbs -> (j < 361)%nat) -> (length nbs <= 4)%nat ->
  exists same oppo libs,
    classify g c nbs = Ok (same, oppo, libs) /\
    NoDup same /\ NoDup oppo /\ (length same <= 4)%nat /\ (length oppo <= 4)%nat /\
    (forall k, k ∈ same <-> exists j grp, j ∈ nbs /\ cell g j = Some k /\
                              live g k = Some grp /\ g_color grp = c) /\
    (forall k, k ∈ oppo <-> exists j grp, j ∈ nbs /\ cell g j = Some k /\
                              live g k = Some grp /\ g_color grp = opp c) /\
    (forall j, j ∈ libs <-> j ∈ nbs /\ cell g j = None).
Proof.
  intros W Hb L.
  destruct (classify_gen g c nbs [] [] [] W Hb) as (s & o & l & E & A1 & A2 & A3 & A4 & A5 & A6 & A7);
    [apply NoDup_nil_2|apply NoDup_nil_2|cbn; lia..|].
  exists s, o, l. split; [exact E|]. do 4 (split; [assumption|]).
  split; [|split].
  - intros k. rewrite A5. split; [intros [H|H]; [apply elem_of_nil in H; tauto|exact H]|tauto].
  - intros k. rewrite A6. split; [intros [H|H]; [apply elem_of_nil in H; tauto|exact H]|tauto].
  - intros j. rewrite A7. cbn [app]. rewrite elem_of_list_In, List.filter_In, <- elem_of_list_In.
    destruct (cell g j); intuition congruence.
Qed.

(** replacing groups by others that differ only in their liberties *)
Definition same_shape (a b : group) : Prop :=
  g_color a = g_color b /\ g_origin a = g_origin b /\ g_last a = g_last b /\
  g_num_stones a = g_num_stones b.

Lemma wf0_reliberty g cs :
  wf0 g -> length cs = length (chains g) ->
  (forall k, match live g k with
             | Some grp => exists grp', mjoin (cs !! k) = Some grp' /\ same_shape grp grp' /\
                                        bits_ok (g_liberties grp')
             | None => mjoin (cs !! k) = None
             end) ->
  wf0 (with_chains g cs).
Proof.
  intros W L H. constructor.
  - apply (wf0_board g W).
  - apply (wf0_next g W).
  - cbn. rewrite L. apply (wf0_len g W).
  - intros i k Hi. destruct (wf0_cell g W i k Hi) as [grp Hk]. specialize (H k). rewrite Hk in H.
    destruct H as (grp' & Hg & _). exists grp'. exact Hg.
  - intros k grp' Hk. specialize (H k). destruct (live g k) as [grp|] eqn:E.
    + destruct H as (grp2 & Hg & (S1 & S2 & S3 & S4) & Hbo).
      assert (grp2 = grp') by (unfold live in Hk; cbn in Hk; congruence). subst grp2.
      split; [exact Hbo|]. destruct (wf0_chain g W k grp E) as [_ (l & [R1 R2 R3 R4 R5] & Hm)].
      exists l. split; [|exact Hm]. constructor; cbn; congruence.
    + unfold live in Hk. cbn in Hk. congruence.
Qed.

(** loop of lines 184-190 *)
Lemma remove_liberties_gen dbg g oppo i dead :
  wf0 g -> (i < 361)%nat -> NoDup oppo -> (length dead + length oppo <= 4)%nat ->
  (forall k, k ∈ oppo -> exists grp, live g k = Some grp /\ lbit (g_liberties grp) i = true) ->
  exists cs' dead',
    foldM (fun '(cs, dead) k =>
           let! grp := chain_at cs k in
           let! grp' := remove_liberty dbg grp i in
           let! cs' := chain_put cs k grp' in
           if is_dead grp' then let! dead' := av_push 4 dead k in Ok (cs', dead')
           else Ok (cs', dead)) oppo (chains g, dead) = Ok (cs', dead') /\
    length cs' = length (chains g) /\
    wf0 (with_chains g cs') /\
    (forall k, k ∉ oppo -> live (with_chains g cs') k = live g k) /\
    (forall k grp, k ∈ oppo -> live g k = Some grp -> exists grp',
        live (with_chains g cs') k = Some grp' /\ same_shape grp grp' /\
        forall j, lbit (g_liberties grp') j = if (j =? i)%nat then false else lbit (g_liberties grp) j) /\
    (exists dd, dead' = dead ++ dd /\ NoDup dd /\
       forall k, k ∈ dd <-> k ∈ oppo /\ exists grp, live g k = Some grp /\
                               forall j, lbit (g_liberties grp) j = true <-> j = i).
Proof.
  revert g dead. induction oppo as [|k ks IH]; intros g dead W Hi Hnd HL Hk.
  - exists (chains g), dead. cbn. split; [reflexivity|]. split; [reflexivity|].
    assert (Eg : with_chains g (chains g) = g) by (destruct g; reflexivity). rewrite Eg.
    split; [exact W|]. split; [reflexivity|]. split.
    + intros k grp H. apply elem_of_nil in H. destruct H.
    + exists []. rewrite app_nil_r. split; [reflexivity|]. split; [apply NoDup_nil_2|].
      intros k. rewrite elem_of_nil. tauto.
  - cbn [foldM length] in *. destruct (Hk k) as (grp & Hlive & Hbit); [left|].
    rewrite (chain_at_live _ _ _ Hlive). cbn [bind].
    destruct (wf0_chain g W k grp Hlive) as [Hbo (l & R & Hm)].
    unfold remove_liberty. rewrite lib_get_spec by (assumption || lia). rewrite Hbit.
    replace (debug_assert dbg (Ok true)) with (Ok tt : res unit) by (destruct dbg; reflexivity).
    cbn [bind]. destruct (lib_set_spec false (g_liberties grp) i Hbo) as (bits & Es & Hbo' & Hb); [lia|].
    rewrite Es. cbn [bind]. set (grp' := with_liberties grp bits).
    rewrite (chain_put_live _ _ _ _ Hlive). cbn [bind].
    set (cs1 := <[k := Some grp']> (chains g)). set (g1 := with_chains g cs1).
    assert (Hklt : (k < length (chains g))%nat) by (eapply live_lt; exact Hlive).
    assert (Hlive1 : forall k', live g1 k' = if decide (k' = k) then Some grp' else live g k').
    { intros k'. unfold live at 1. apply live_put; [exact Hklt|reflexivity]. }
    assert (W1 : wf0 g1).
    { apply wf0_reliberty; [exact W|unfold cs1; apply insert_length|].
      intros k'. specialize (Hlive1 k'). unfold live at 1 in Hlive1. cbn [chains g1 with_chains] in Hlive1.
      rewrite Hlive1. destruct (decide (k' = k)) as [->|Hne].
      - rewrite Hlive. exists grp'. split; [reflexivity|]. split; [repeat split|exact Hbo'].
      - destruct (live g k') as [gr|] eqn:E; [|reflexivity]. exists gr. split; [reflexivity|].
        split; [repeat split|]. apply (wf0_chain g W k' gr E). }
    apply NoDup_cons in Hnd as [Hkn Hnd].
    assert (Hks : forall k0, k0 ∈ ks -> exists grp0, live g1 k0 = Some grp0 /\ lbit (g_liberties grp0) i = true).
    { intros k0 Hk0. rewrite Hlive1. destruct (decide (k0 = k)) as [->|]; [contradiction|].
      apply Hk. right. exact Hk0. }
    assert (Hdead : is_dead grp' = true <-> forall j, lbit (g_liberties grp) j = true <-> j = i).
    { rewrite is_dead_spec by exact Hbo'. cbn. split.
      - intros H j. split; [|intros ->; exact Hbit]. intros Hj. specialize (H j). rewrite Hb in H.
        destruct (Nat.eqb_spec j i); congruence.
      - intros H j. rewrite Hb. destruct (Nat.eqb_spec j i) as [|Hne]; [reflexivity|].
        destruct (lbit (g_liberties grp) j) eqn:E; [|reflexivity]. apply H in E. congruence. }
    set (dead1 := if is_dead grp' then dead ++ [k] else dead).
    assert (Estep : (if is_dead grp' then let! dead' := av_push 4 dead k in Ok (cs1, dead') else Ok (cs1, dead))
                    = Ok (cs1, dead1)).
    { unfold dead1. destruct (is_dead grp'); [|reflexivity]. unfold av_push.
      destruct (Nat.ltb_spec (length dead) 4); [reflexivity|lia]. }
    rewrite Estep. cbn [bind].
    destruct (IH g1 dead1 W1 Hi Hnd) as (cs' & dead' & E & L & W' & B1 & B2 & dd & B3 & B4 & B5); [|exact Hks|].
    { unfold dead1. destruct (is_dead grp'); rewrite ?app_length; cbn; lia. }
    exists cs', dead'. split; [exact E|].
    split; [rewrite L; cbn; unfold cs1; apply insert_length|].
    split; [exact W'|].
    change (with_chains g1 cs') with (with_chains g cs') in *. split; [|split].
    + intros k0 Hk0. apply not_elem_of_cons in Hk0 as [N1 N2]. rewrite B1 by exact N2. rewrite Hlive1.
      destruct (decide (k0 = k)); congruence.
    + intros k0 gr Hk0 Hg0. destruct (decide (k0 = k)) as [->|Hne].
      * rewrite B1 by exact Hkn. rewrite Hlive1. destruct (decide (k = k)); [|congruence].
        exists grp'. assert (gr = grp) by congruence. subst gr. split; [reflexivity|]. split; [repeat split|].
        exact Hb.
      * apply elem_of_cons in Hk0 as [|Hk0]; [contradiction|].
        apply (B2 k0 gr); [exact Hk0|]. rewrite Hlive1. destruct (decide (k0 = k)); congruence.
    + assert (Hks' : forall k0, (k0 ∈ ks /\ exists grp0, live g1 k0 = Some grp0 /\
                  (forall j, lbit (g_liberties grp0) j = true <-> j = i)) <->
                (k0 ∈ ks /\ exists grp0, live g k0 = Some grp0 /\
                  (forall j, lbit (g_liberties grp0) j = true <-> j = i))).
      { intros k0. split; (intros [H1 H2]; split; [exact H1|]); [rewrite Hlive1 in H2|rewrite Hlive1];
          (destruct (decide (k0 = k)) as [->|]; [contradiction|exact H2]). }
      unfold dead1 in B3. destruct (is_dead grp') eqn:Ed.
      * exists (k :: dd). split; [rewrite B3, <- app_assoc; reflexivity|].
        split.
        -- apply NoDup_cons. split; [|exact B4]. intros Hx. apply B5 in Hx. tauto.
        -- intros k0. rewrite !elem_of_cons, B5, Hks'. split.
           ++ intros [->|[H1 H2]]; [|tauto]. split; [tauto|]. exists grp. split; [exact Hlive|].
              apply Hdead. reflexivity.
           ++ intros [[->|H1] H2]; tauto.
      * exists dd. split; [exact B3|]. split; [exact B4|].
        intros k0. rewrite elem_of_cons, B5, Hks'. split; [tauto|].
        intros [[->|H1] H2]; [|tauto]. destruct H2 as (g0 & Hg0 & Hall).
        assert (g0 = grp) by congruence. subst g0. apply Hdead in Hall. congruence.
Qed.

(** lines 206-216: merging the groups joined by the stone *)
Lemma merge_all_gen dbg g1 c i (libs : list nat) K rest :
  wf0 g1 ->
  live g1 K = None ->
  NoDup rest ->
  (forall k, k ∈ rest -> exists gk, live g1 k = Some gk /\ g_color gk = c) ->
  forall P t gt grpt,
    wf0 gt -> gsize gt = gsize g1 -> zobrist_hash gt = zobrist_hash g1 ->
    (t = K \/ t ∈ P) -> K ∉ rest -> K ∉ P -> (forall k, k ∈ rest -> k ∉ P) ->
    (forall j, cell gt j = if decide (j = i \/ cell g1 j ∈ (Some <$> P)) then Some t else cell g1 j) ->
    (forall k, live gt k = if decide (k = t) then Some grpt
                           else if decide (k = K \/ k ∈ P) then None else live g1 k) ->
    g_color grpt = c ->
    (forall j, lbit (g_liberties grpt) j = true <->
        j ∈ libs \/ exists k gk, k ∈ P /\ live g1 k = Some gk /\ lbit (g_liberties gk) j = true) ->
    exists g' u grpu,
      merge_all dbg gt t rest = Ok (g', u) /\
      wf0 g' /\ gsize g' = gsize g1 /\ zobrist_hash g' = zobrist_hash g1 /\
      length (chains g') = length (chains gt) /\
      (u = K \/ u ∈ P ++ rest) /\
      (forall j, cell g' j = if decide (j = i \/ cell g1 j ∈ (Some <$> (P ++ rest))) then Some u else cell g1 j) /\
      (forall k, live g' k = if decide (k = u) then Some grpu
                             else if decide (k = K \/ k ∈ P ++ rest) then None else live g1 k) /\
      g_color grpu = c /\
      (forall j, lbit (g_liberties grpu) j = true <->
        j ∈ libs \/ exists k gk, k ∈ P ++ rest /\ live g1 k = Some gk /\ lbit (g_liberties gk) j = true).
Proof.
  intros W1 HK. induction rest as [|a rest IH]; intros Hnd Hlv P t gt grpt Wt Hsz Hh Ht HKr HKP Hdis Hcell Hlive Hcol Hbit.
  - exists gt, t, grpt. rewrite app_nil_r. cbn. repeat (split; [first [reflexivity|assumption|tauto]|]). exact Hbit.
  - apply NoDup_cons in Hnd as [Har Hnd]. apply not_elem_of_cons in HKr as [HKa HKr].
    destruct (Hlv a) as (ga & Hga & Hgac); [left|].
    assert (HaP : a ∉ P) by (apply Hdis; left).
    assert (Hat : a <> t) by (destruct Ht as [->|Ht]; [congruence|intros ->; contradiction]).
    assert (Hla : live gt a = Some ga).
    { rewrite Hlive. destruct (decide (a = t)); [congruence|]. destruct (decide (a = K \/ a ∈ P)) as [[|]|]; [congruence|contradiction|exact Hga]. }
    assert (Hlt : live gt t = Some grpt) by (rewrite Hlive; destruct (decide (t = t)); congruence).
    unfold merge_all. cbn [foldM]. rewrite (chain_at_live _ _ _ Hla), (chain_at_live _ _ _ Hlt). cbn [bind].
    assert (Hstep : exists g2 t2 grp2,
      (if (number_of_liberties ga <? number_of_liberties grpt)%nat then
         let! g' := merge_strings dbg gt t a in Ok (g', t)
       else let! g' := merge_strings dbg gt a t in Ok (g', a)) = Ok (g2, t2) /\
      wf0 g2 /\ gsize g2 = gsize gt /\ zobrist_hash g2 = zobrist_hash gt /\
      length (chains g2) = length (chains gt) /\
      (t2 = t \/ t2 = a) /\
      (forall j, cell g2 j = if decide (cell gt j = Some t \/ cell gt j = Some a) then Some t2 else cell gt j) /\
      (forall k, live g2 k = if decide (k = t2) then Some grp2
                           else if decide (k = t \/ k = a) then None else live gt k) /\
      g_color grp2 = c /\
      (forall j, lbit (g_liberties grp2) j = lbit (g_liberties grpt) j || lbit (g_liberties ga) j)).
    { destruct (number_of_liberties ga <? number_of_liberties grpt)%nat.
      - destruct (merge_spec dbg gt t a grpt ga Wt Hlt Hla) as (g2 & grp2 & E & A1 & A2 & A3 & A4 & A5 & A6 & A7 & A8);
          [congruence|congruence|].
        exists g2, t, grp2. rewrite E. cbn [bind]. repeat (split; [first [reflexivity|assumption|tauto]|]).
        split; [|split; [|split; [congruence|exact A8]]].
        + intros j. rewrite A5. repeat destruct (decide _); try tauto; congruence || intuition congruence.
        + intros k. rewrite A6. repeat destruct (decide _); try tauto; intuition congruence.
      - destruct (merge_spec dbg gt a t ga grpt Wt Hla Hlt) as (g2 & grp2 & E & A1 & A2 & A3 & A4 & A5 & A6 & A7 & A8);
          [congruence|congruence|].
        exists g2, a, grp2. rewrite E. cbn [bind]. repeat (split; [first [reflexivity|assumption|tauto]|]).
        split; [|split; [|split; [congruence|intros j; rewrite A8; apply orb_comm]]].
        + intros j. rewrite A5. repeat destruct (decide _); try tauto; intuition congruence.
        + intros k. rewrite A6. repeat destruct (decide _); try tauto; intuition congruence. }
    destruct Hstep as (g2 & t2 & grp2 & E & W2 & S2 & Z2 & L2 & T2 & C2 & V2 & Col2 & B2).
    rewrite E. cbn [bind]. fold (merge_all dbg g2 t2 rest).
    assert (Hcell_t : forall j, cell gt j = Some t <-> (j = i \/ cell g1 j ∈ (Some <$> P))).
    { intros j. rewrite Hcell. destruct (decide _) as [D|D]; [tauto|].
      split; [|tauto]. intros Hj. exfalso. apply D. right. apply elem_of_list_fmap.
      destruct Ht as [->|Ht].
      - destruct (wf0_cell g1 W1 j K Hj) as [x Hx]. congruence.
      - exists t. split; [congruence|exact Ht]. }
    destruct (IH Hnd) with (P := P ++ [a]) (t := t2) (gt := g2) (grpt := grp2)
      as (g' & u & grpu & R1 & R2 & R3 & R4 & R5 & R6 & R7 & R8 & R9 & R10).
    + intros k Hk. apply Hlv. right. exact Hk.
    + exact W2.
    + congruence.
    + congruence.
    + destruct T2 as [->| ->].
      * destruct Ht; [tauto|]. right. apply elem_of_app. tauto.
      * right. apply elem_of_app. right. left.
    + exact HKr.
    + rewrite elem_of_app, elem_of_list_singleton. intros [|]; [contradiction|congruence].
    + intros k Hk. rewrite elem_of_app, elem_of_list_singleton. intros [H| ->]; [|contradiction].
      revert H. apply Hdis. right. exact Hk.
    + intros j. rewrite C2. rewrite fmap_app. cbn [fmap list_fmap].
      assert (Hd : (cell gt j = Some t \/ cell gt j = Some a) <->
                   (j = i \/ cell g1 j ∈ ((Some <$> P) ++ [Some a]))).
      { rewrite elem_of_app, elem_of_list_singleton. rewrite Hcell_t. split.
        - intros [H|H]; [tauto|]. rewrite Hcell in H. destruct (decide _) as [D|D]; [congruence|tauto].
        - intros [H|[H|H]]; [tauto|tauto|].
          destruct (decide (j = i \/ cell g1 j ∈ Some <$> P)) as [D|D]; [tauto|].
          right. rewrite Hcell. destruct (decide _); [contradiction|exact H]. }
      destruct (decide (cell gt j = Some t \/ cell gt j = Some a)) as [D|D];
        destruct (decide (j = i \/ cell g1 j ∈ _)) as [D'|D']; try tauto.
      rewrite Hcell. destruct (decide _) as [D2|D2]; [|reflexivity].
      exfalso. apply D'. rewrite elem_of_app. tauto.
    + intros k. rewrite V2. destruct (decide (k = t2)) as [|Nk]; [reflexivity|].
      destruct (decide (k = t \/ k = a)) as [D|D]; destruct (decide (k = K \/ k ∈ P ++ [a])) as [D'|D']; try reflexivity.
      * exfalso. apply D'. rewrite elem_of_app, elem_of_list_singleton. destruct D as [->| ->]; tauto.
      * rewrite Hlive. destruct (decide (k = t)); [tauto|].
        destruct (decide (k = K \/ k ∈ P)) as [D2|D2]; [reflexivity|]. exfalso.
        rewrite elem_of_app, elem_of_list_singleton in D'. tauto.
      * rewrite Hlive. destruct (decide (k = t)); [tauto|].
        destruct (decide (k = K \/ k ∈ P)) as [D2|D2]; [|reflexivity]. exfalso.
        rewrite elem_of_app in D'. tauto.
    + exact Col2.
    + intros j. rewrite B2, orb_true_iff, Hbit. split.
      * intros [[H|(k & gk & H1 & H2 & H3)]|H]; [tauto| |].
        -- right. exists k, gk. rewrite elem_of_app. tauto.
        -- right. exists a, ga. rewrite elem_of_app, elem_of_list_singleton. tauto.
      * intros [H|(k & gk & H1 & H2 & H3)]; [tauto|]. apply elem_of_app in H1 as [H1|H1].
        -- left. right. exists k, gk. tauto.
        -- apply elem_of_list_singleton in H1. subst k. right. congruence.
    + rewrite <- app_assoc in R6, R7, R8, R10. cbn [app] in R6, R7, R8, R10.
      exists g', u, grpu. split; [exact R1|]. split; [exact R2|]. split; [exact R3|]. split; [exact R4|].
      split; [lia|]. split; [exact R6|]. split; [exact R7|]. split; [exact R8|]. split; [exact R9|exact R10].
Qed.

(** setting one group of a well-formed board *)
Lemma wf0_put g k grp grp' :
  wf0 g -> live g k = Some grp -> same_shape grp grp' -> bits_ok (g_liberties grp') ->
  wf0 (with_chains g (<[k := Some grp']> (chains g))) /\
  forall k', live (with_chains g (<[k := Some grp']> (chains g))) k' =
             if decide (k' = k) then Some grp' else live g k'.
Proof.
  intros W Hk Hs Hb.
  assert (Hklt : (k < length (chains g))%nat) by (eapply live_lt; exact Hk).
  assert (Hl : forall k', mjoin (<[k := Some grp']> (chains g) !! k') =
             if decide (k' = k) then Some grp' else live g k').
  { intros k'. apply live_put; [exact Hklt|reflexivity]. }
  split; [|exact Hl].
  apply wf0_reliberty; [exact W|apply insert_length|]. intros k'. rewrite Hl.
  destruct (decide (k' = k)) as [->|Hne].
  - rewrite Hk. exists grp'. tauto.
  - destruct (live g k') as [gr|] eqn:E; [|reflexivity]. exists gr. split; [reflexivity|].
    split; [repeat split|]. apply (wf0_chain g W k' gr E).
Qed.

Lemma remove_liberty_ok dbg grp i :
  bits_ok (g_liberties grp) -> (i < 368)%nat -> (dbg = true -> lbit (g_liberties grp) i = true) ->
  exists grp', remove_liberty dbg grp i = Ok grp' /\ same_shape grp grp' /\ bits_ok (g_liberties grp') /\
    forall j, lbit (g_liberties grp') j = if (j =? i)%nat then false else lbit (g_liberties grp) j.
Proof.
  intros Hbo Hi Hbit. unfold remove_liberty. rewrite lib_get_spec by assumption.
  replace (debug_assert dbg (Ok (lbit (g_liberties grp) i))) with (Ok tt : res unit)
    by (destruct dbg; [rewrite Hbit by reflexivity|]; reflexivity).
  cbn [bind]. destruct (lib_set_spec false (g_liberties grp) i Hbo Hi) as (bits & Es & Hbo' & Hb).
  rewrite Es. cbn [bind]. exists (with_liberties grp bits). split; [reflexivity|].
  split; [repeat split|]. split; [exact Hbo'|exact Hb].
Qed.

Lemma union_liberties_ok grp libs :
  bits_ok (g_liberties grp) -> Forall (fun j => (j < 368)%nat) libs ->
  exists grp', union_liberties_slice grp libs = Ok grp' /\ same_shape grp grp' /\ bits_ok (g_liberties grp') /\
    forall j : nat, lbit (g_liberties grp') j = true <-> j ∈ libs \/ lbit (g_liberties grp) j = true.
Proof.
  intros Hbo Hl. revert grp Hbo. induction Hl as [|x l Hx _ IH]; intros grp Hbo.
  - exists grp. split; [reflexivity|]. split; [repeat split|]. split; [exact Hbo|].
    intros j. rewrite elem_of_nil. tauto.
  - unfold union_liberties_slice in *. cbn [foldM]. unfold add_liberty_unchecked at 1.
    destruct (lib_set_spec true (g_liberties grp) x Hbo Hx) as (bits & Es & Hbo' & Hb).
    rewrite Es. cbn [bind]. destruct (IH (with_liberties grp bits) Hbo') as (grp' & E & S & B & H).
    exists grp'. split; [exact E|]. split; [exact S|]. split; [exact B|].
    intros j. rewrite H, elem_of_cons. cbn. rewrite Hb. destruct (Nat.eqb_spec j x); intuition congruence.
Qed.

(** lines 192-220 *)
Lemma place_spec dbg g1 i c same (libs : list nat) :
  wf0 g1 -> (i < 361)%nat -> cell g1 i = None -> NoDup same ->
  (forall k, k ∈ same -> exists gk, live g1 k = Some gk /\ g_color gk = c /\ (dbg = true -> lbit (g_liberties gk) i = true)) ->
  (forall j, j ∈ libs -> (j < 361)%nat) -> i ∉ libs ->
  (place_stone dbg g1 i c same libs = Panic /\ (N.of_nat (length (chains g1)) = 65535)%N /\ length same <> 1%nat) \/
  exists g' u grpu,
    place_stone dbg g1 i c same libs = Ok (g', u) /\
    wf0 g' /\ gsize g' = gsize g1 /\ zobrist_hash g' = zobrist_hash g1 /\
    length (chains g') = ((if (length same =? 1)%nat then 0 else 1) + length (chains g1))%nat /\
    (u = length (chains g1) \/ u ∈ same) /\
    (forall j, cell g' j = if decide (j = i \/ cell g1 j ∈ (Some <$> same)) then Some u else cell g1 j) /\
    (forall k, live g' k = if decide (k = u) then Some grpu
                           else if decide (k ∈ same) then None else live g1 k) /\
    g_color grpu = c /\
    (forall j, lbit (g_liberties grpu) j = true <->
      j <> i /\ (j ∈ libs \/ exists k gk, k ∈ same /\ live g1 k = Some gk /\ lbit (g_liberties gk) j = true)).
Proof.
  intros W Hi Hc Hnd Hsame Hlibs Hil.
  assert (Hlibs' : Forall (fun j => (j < 368)%nat) libs).
  { apply Forall_forall. intros j Hj. specialize (Hlibs j Hj). lia. }
  set (K := length (chains g1)).
  assert (HK : live g1 K = None).
  { unfold live. rewrite lookup_ge_None_2 by (unfold K; lia). reflexivity. }
  destruct same as [|k0 [|k1 ks]].
  - (* no neighbour of the same colour *)
    destruct (create_spec dbg g1 i c libs W Hi Hc Hlibs') as [[E F]|(g' & grp & HL & E & W' & S & Z & L & C & V & Col & B)].
    + left. split; [exact E|]. split; [exact F|discriminate].
    + right. exists g', K, grp. cbn [place_stone]. split; [exact E|]. split; [exact W'|]. split; [exact S|].
      split; [exact Z|]. split; [exact L|]. split; [tauto|].
      split; [|split; [|split; [exact Col|]]].
      * intros j. rewrite C. cbn. destruct (decide (j = i)); destruct (decide (j = i \/ cell g1 j ∈ [])) as [D|D]; try tauto.
        destruct D as [|D]; [tauto|]. apply elem_of_nil in D. destruct D.
      * intros k. rewrite V. fold K. destruct (decide (k = K)); [reflexivity|].
        destruct (decide (k ∈ [])) as [D|D]; [apply elem_of_nil in D; destruct D|reflexivity].
      * intros j. rewrite B. split.
        -- intros H. split; [intros ->; contradiction|tauto].
        -- intros [_ [H|(k & gk & H & _)]]; [exact H|]. apply elem_of_nil in H. destruct H.
  - (* one neighbouring group *)
    right. destruct (Hsame k0) as (gk & Hk & Hcol & Hbit); [left|].
    destruct (wf0_chain g1 W k0 gk Hk) as [Hbo _].
    destruct (remove_liberty_ok dbg gk i Hbo) as (gk1 & E1 & S1 & Bo1 & B1); [lia|exact Hbit|].
    destruct (union_liberties_ok gk1 libs Bo1 Hlibs') as (gk2 & E2 & S2 & Bo2 & B2).
    assert (S12 : same_shape gk gk2).
    { destruct S1 as (?&?&?&?), S2 as (?&?&?&?). repeat split; congruence. }
    destruct (wf0_put g1 k0 gk gk2 W Hk S12 Bo2) as [W2 V2].
    set (g2 := with_chains g1 (<[k0 := Some gk2]> (chains g1))) in *.
    assert (Hk2 : live g2 k0 = Some gk2) by (rewrite V2; destruct (decide _); congruence).
    destruct (add_stone_spec dbg g2 k0 gk2 i W2 Hk2 Hi Hc)
      as (g3 & gk3 & E3 & Bd3 & Sz3 & Z3 & L3 & W3 & V3 & Col3 & Lib3).
    assert (Hk0lt : (k0 < length (chains g1))%nat) by (eapply live_lt; exact Hk).
    assert (HkN : (N.of_nat k0 < 65535)%N) by (pose proof (wf0_len g1 W); lia).
    exists (with_board g3 (<[i := Some k0]> (board g3))), k0, gk3.
    split.
    { cbn [place_stone]. rewrite (chain_at_live _ _ _ Hk). cbn [bind]. rewrite E1. cbn [bind]. rewrite E2. cbn [bind].
      rewrite (chain_put_live _ _ _ _ Hk). cbn [bind]. fold g2. rewrite E3. cbn [bind].
      rewrite nonmax_ok by exact HkN. cbn [bind].
      rewrite vset_ok by (rewrite Bd3; cbn; rewrite (wf0_board g1 W); exact Hi). reflexivity. }
    split; [exact W3|]. split; [exact Sz3|]. split; [exact Z3|].
    split. { cbn [chains with_board]. rewrite L3. cbn. rewrite insert_length. lia. }
    split; [right; left|].
    split; [|split; [|split]].
    + intros j. unfold cell at 1. cbn [board with_board]. rewrite Bd3.
      change (board g2) with (board g1).
      destruct (decide (j = i)) as [->|Hji].
      * rewrite list_lookup_insert by (rewrite (wf0_board g1 W); exact Hi). cbn.
        destruct (decide _) as [|D]; [reflexivity|]. tauto.
      * rewrite list_lookup_insert_ne by congruence. fold (cell g1 j).
        destruct (decide (j = i \/ cell g1 j ∈ Some <$> [k0])) as [D|D]; [|reflexivity].
        destruct D as [|D]; [contradiction|]. cbn in D. apply elem_of_list_singleton in D. exact D.
    + intros k. change (live (with_board g3 (<[i:=Some k0]> (board g3))) k) with (live g3 k).
      rewrite V3, V2. destruct (decide (k = k0)); [reflexivity|].
      destruct (decide (k ∈ [k0])) as [D|D]; [|reflexivity]. apply elem_of_list_singleton in D. contradiction.
    + destruct S12 as (Hc12 & _). congruence.
    + intros j. rewrite Lib3, B2, B1. split.
      * intros [H|H].
        -- split; [intros ->; contradiction|tauto].
        -- destruct (Nat.eqb_spec j i); [discriminate|]. split; [assumption|]. right. exists k0, gk.
           split; [left|]. tauto.
      * intros [Hji [H|(k & gx & H1 & H2 & H3)]]; [tauto|]. apply elem_of_list_singleton in H1. subst k.
        right. destruct (Nat.eqb_spec j i); [contradiction|]. congruence.
  - (* several *)
    set (same := k0 :: k1 :: ks) in *.
    destruct (create_spec dbg g1 i c libs W Hi Hc Hlibs') as [[E F]|(g2 & grp & HL & E & W' & S & Z & L & C & V & Col & B)].
    + left. split; [|split; [exact F|discriminate]]. unfold place_stone, same. rewrite E. reflexivity.
    + right. fold K in E, C, V.
      destruct (merge_all_gen dbg g1 c i libs K same W HK Hnd) with (P := @nil nat) (t := K) (gt := g2) (grpt := grp)
        as (g3 & u & gu & R1 & R2 & R3 & R4 & R5 & R6 & R7 & R8 & R9 & R10).
      * intros k Hk. destruct (Hsame k Hk) as (gk & ? & ? & ?). eauto.
      * exact W'.
      * exact S.
      * exact Z.
      * tauto.
      * intros H. destruct (Hsame K H) as (gk & Hx & _). congruence.
      * apply not_elem_of_nil.
      * intros k _. apply not_elem_of_nil.
      * intros j. rewrite C. cbn. destruct (decide (j = i)); destruct (decide (j = i \/ cell g1 j ∈ [])) as [D|D]; try tauto.
        destruct D as [|D]; [tauto|]. apply elem_of_nil in D. destruct D.
      * intros k. rewrite V. destruct (decide (k = K)) as [|Nk]; [reflexivity|].
        destruct (decide (k = K \/ k ∈ [])) as [[D|D]|D]; [contradiction|apply elem_of_nil in D; destruct D|reflexivity].
      * exact Col.
      * intros j. rewrite B. split; [tauto|]. intros [H|(k & gk & H & _)]; [exact H|]. apply elem_of_nil in H. destruct H.
      * cbn [app] in R6, R7, R8, R10.
        assert (Hgu : live g3 u = Some gu) by (rewrite R8; destruct (decide (u = u)); congruence).
        destruct (wf0_chain g3 R2 u gu Hgu) as [Hbo _].
        assert (Hbu : dbg = true -> lbit (g_liberties gu) i = true).
        { intros Hdbg. apply R10. right. destruct (Hsame k0) as (gk & H1 & H2 & H3); [left|]. exists k0, gk.
          split; [left|]. split; [exact H1|exact (H3 Hdbg)]. }
        destruct (remove_liberty_ok dbg gu i Hbo) as (gu1 & E1 & S1 & Bo1 & B1); [lia|exact Hbu|].
        destruct (wf0_put g3 u gu gu1 R2 Hgu S1 Bo1) as [W4 V4].
        exists (with_chains g3 (<[u := Some gu1]> (chains g3))), u, gu1.
        split. { unfold place_stone, same. rewrite E. cbn [bind]. fold same. rewrite R1. cbn [bind].
          rewrite (chain_at_live _ _ _ Hgu). cbn [bind]. rewrite E1. cbn [bind].
          rewrite (chain_put_live _ _ _ _ Hgu). reflexivity. }
        split; [exact W4|]. split; [exact R3|]. split; [exact R4|].
        split. { cbn. rewrite insert_length, R5, L. lia. }
        split; [exact R6|].
        split; [|split; [|split]].
        -- exact R7.
        -- intros k. rewrite V4, R8. destruct (decide (k = u)) as [|Nk]; [reflexivity|].
           destruct (decide (k = K \/ k ∈ same)) as [D|D]; destruct (decide (k ∈ same)) as [D'|D']; try tauto.
           destruct D as [->|]; [|contradiction]. congruence.
        -- destruct S1 as (Hx & _). congruence.
        -- intros j. rewrite B1. destruct (Nat.eqb_spec j i) as [->|Hji].
           ++ split; [discriminate|tauto].
           ++ rewrite R10. tauto.
Qed.
