(** A stone played on an occupied point. *)
From stdpp Require Import relations sorting.
From Verif Require Import MonadFacts BitsetFacts CoordFacts Struct Push Inv Remove Capture Bridge GameFacts LegalFacts PropFacts ClaimFacts RefuteFacts CaseFacts.
From Verif Require Export Observe Reach OverSpec.
From Coq Require Import Lia.

Local Notation length := Datatypes.length.
Open Scope nat_scope.

(** * Placing a stone does not look at chains that it does not touch

    [patch g] is [g] with a further chain: the group [old] in slot [J], shown on
    the cells [D]. *)
Section Patch.
Variables (J : nat) (old : group) (D : list nat).

Definition pb (b : list (option nat)) : list (option nat) := imap (fun i x => if decide (i ∈ D) then Some J else x) b.
Definition patch (g : goban) : goban :=
  mkGoban (<[J := Some old]> (chains g)) (pb (board g)) (next_stone g) (gsize g) (zobrist_hash g).
Definition bare (b : list (option nat)) : Prop := forall i, i ∈ D -> b !! i = Some None.

Lemma pb_lookup b i : pb b !! i = (fun x => if decide (i ∈ D) then Some J else x) <$> b !! i.
Proof. unfold pb. rewrite list_lookup_imap. reflexivity. Qed.

Lemma pb_insert b i x : i ∉ D -> pb (<[i := x]> b) = <[i := x]> (pb b).
Proof.
  intros Hi. apply list_eq. intros j. rewrite pb_lookup. destruct (decide (j = i)) as [->|Hj].
  - destruct (decide (i < length b)) as [L|L].
    + rewrite !list_lookup_insert; [|unfold pb; rewrite imap_length; exact L|exact L]. cbn. destruct (decide (i ∈ D)); [contradiction|reflexivity].
    + rewrite !lookup_ge_None_2; [reflexivity|rewrite insert_length; unfold pb; rewrite imap_length; lia|rewrite insert_length; lia].
  - rewrite !list_lookup_insert_ne by congruence. rewrite pb_lookup. reflexivity.
Qed.

Lemma vset_pb b i x b' : i ∉ D -> vset b i x = Ok b' -> vset (pb b) i x = Ok (pb b').
Proof.
  intros Hi H. unfold vset in *. unfold pb at 1. rewrite imap_length. destruct (i <? length b); [|discriminate H].
  injection H as <-. rewrite pb_insert by exact Hi. reflexivity.
Qed.

Lemma paint_inv k (l : list nat) : forall b b', foldM (fun b p => let! k' := nonmax_u16 k in vset b p (Some k')) l b = Ok b' ->
  (forall i, i ∈ l -> b' !! i <> Some None) /\ (forall i, i ∉ l -> b' !! i = b !! i).
Proof.
  induction l as [|a l IH]; intros b b' H; cbn [foldM] in H.
  - injection H as <-. split; [|reflexivity]. intros i Hi. inversion Hi.
  - apply bind_ok in H as (b1 & H1 & H). apply bind_ok in H1 as (k' & _ & H1). unfold vset in H1.
    destruct (a <? length b) eqn:La; [|discriminate H1]. injection H1 as <-. apply Nat.ltb_lt in La.
    destruct (IH _ _ H) as [A B]. split.
    + intros i Hi. destruct (decide (i ∈ l)) as [Hl|Hl]; [apply A, Hl|]. apply elem_of_cons in Hi as [->|]; [|contradiction].
      rewrite B by exact Hl. rewrite list_lookup_insert by exact La. discriminate.
    + intros i Hi. apply not_elem_of_cons in Hi as [N1 N2]. rewrite B by exact N2. apply list_lookup_insert_ne. congruence.
Qed.

Lemma paint_patch k (l : list nat) : forall b b', foldM (fun b p => let! k' := nonmax_u16 k in vset b p (Some k')) l b = Ok b' -> bare b' ->
  foldM (fun b p => let! k' := nonmax_u16 k in vset b p (Some k')) l (pb b) = Ok (pb b') /\ bare b.
Proof.
  intros b b' H HB. assert (Hl : forall i, i ∈ l -> i ∉ D).
  { intros i Hi Hd. apply (proj1 (paint_inv k l b b' H) i Hi). apply HB, Hd. }
  split.
  - clear HB. revert b H. induction l as [|a l IH]; intros b H; cbn [foldM] in *; [injection H as <-; reflexivity|].
    apply bind_ok in H as (b1 & H1 & H). apply bind_ok in H1 as (k' & Ek & H1). rewrite Ek. cbn [bind].
    rewrite (vset_pb b a (Some k') b1) by (try exact H1; apply Hl; left). cbn [bind]. rewrite Ek in *.
    apply IH; [|exact H]. intros i Hi. apply Hl. right. exact Hi.
  - intros i Hi. rewrite <- (proj2 (paint_inv k l b b' H)); [apply HB, Hi|]. intros Hx. exact (Hl i Hx Hi).
Qed.

Lemma chain_at_pc (cs : groups) k : k <> J -> chain_at (<[J := Some old]> cs) k = chain_at cs k.
Proof. intros H. unfold chain_at, vget. rewrite list_lookup_insert_ne by congruence. reflexivity. Qed.

Lemma vset_pc (cs : groups) k x cs' : k <> J -> vset cs k x = Ok cs' -> vset (<[J := Some old]> cs) k x = Ok (<[J := Some old]> cs').
Proof.
  intros H E. unfold vset in *. rewrite insert_length. destruct (k <? length cs); [|discriminate E]. injection E as <-.
  f_equal. apply list_insert_commute. exact H.
Qed.

Lemma chain_put_pc cs k x cs' : k <> J -> chain_put cs k x = Ok cs' -> chain_put (<[J := Some old]> cs) k x = Ok (<[J := Some old]> cs').
Proof.
  intros H E. unfold chain_put in *. rewrite chain_at_pc by exact H. apply bind_ok in E as (y & Ey & E). rewrite Ey. cbn [bind].
  apply vset_pc; assumption.
Qed.

Lemma update_patch dbg g k g' : update_chain_indexes_in_board dbg g k = Ok g' -> k <> J -> bare (board g') ->
  update_chain_indexes_in_board dbg (patch g) k = Ok (patch g') /\ bare (board g) /\ chains g' = chains g.
Proof.
  intros H Hk HB. unfold update_chain_indexes_in_board in *. cbn [patch chains board next_stone] in *.
  rewrite chain_at_pc by exact Hk.
  apply bind_ok in H as (u & Hu & H). rewrite Hu. cbn [bind].
  apply bind_ok in H as (grp & Hg & H). rewrite Hg. cbn [bind].
  apply bind_ok in H as (b & Hb & H). injection H as <-. cbn [board with_board] in HB.
  apply for_from_inv in Hb as (l & Hl & Hb). unfold group_for. rewrite (for_from_iter _ _ _ _ _ _ _ _ _ (le_n _) Hl).
  destruct (paint_patch k l _ _ Hb HB) as [E B]. rewrite E. cbn [bind]. split; [reflexivity|]. split; [exact B|reflexivity].
Qed.

Lemma create_patch dbg g i c libs g' k : create_chain dbg g i c libs = Ok (g', k) -> J < length (chains g) -> bare (board g') ->
  create_chain dbg (patch g) i c libs = Ok (patch g', k) /\ bare (board g) /\ k <> J /\ length (chains g') = S (length (chains g)).
Proof.
  intros H HJ HB. unfold create_chain in *. cbn [patch next_stone chains] in *.
  apply bind_ok in H as (bits & Hb & H). rewrite Hb. cbn [bind].
  apply bind_ok in H as (nx & Hn & H). rewrite Hn. cbn [bind put_free_spot] in *.
  apply bind_ok in H as (g1 & Hu & H). injection H as <- <-.
  assert (HK : length (chains g) <> J) by lia.
  destruct (update_patch dbg _ _ _ Hu HK HB) as (E & B & EC). cbn [with_chains with_next board chains] in B, EC.
  rewrite insert_length. rewrite <- insert_app_l by exact HJ.
  match goal with |- context [update_chain_indexes_in_board dbg ?x _] => change x with (patch (with_chains (with_next g nx) (chains g ++ [Some (new_with_liberties c i bits)]))) end.
  rewrite E. cbn [bind]. split; [reflexivity|]. split; [exact B|]. split; [exact HK|]. rewrite EC, app_length. cbn. lia.
Qed.

Lemma merge_patch dbg g k1 k2 g' : merge_strings dbg g k1 k2 = Ok g' -> k1 <> J -> k2 <> J -> bare (board g') ->
  merge_strings dbg (patch g) k1 k2 = Ok (patch g') /\ bare (board g) /\ length (chains g') = length (chains g).
Proof.
  intros H N1 N2 HB. unfold merge_strings in *. cbn [patch next_stone chains] in *. rewrite !chain_at_pc by assumption.
  apply bind_ok in H as (c1 & H1 & H). rewrite H1. cbn [bind]. apply bind_ok in H as (c2 & H2 & H). rewrite H2. cbn [bind].
  apply bind_ok in H as (u1 & Hu1 & H). rewrite Hu1. cbn [bind]. apply bind_ok in H as (u2 & Hu2 & H). rewrite Hu2. cbn [bind].
  destruct (if g_origin c2 <? g_origin c1 then (g_origin c2, g_last c1) else (g_origin c1, g_last c2)) as [o l].
  apply bind_ok in H as (nx & Hnx & H). rewrite Hnx. cbn [bind]. apply bind_ok in H as (num & Hnum & H). rewrite Hnum. cbn [bind].
  apply bind_ok in H as (cs & Hcs & H). rewrite (chain_put_pc _ _ _ _ N1 Hcs). cbn [bind].
  apply bind_ok in H as (g1 & Hg1 & H). apply bind_ok in H as (cs' & Hcs' & H). injection H as <-.
  destruct (update_patch dbg _ _ _ Hg1 N1 HB) as (E & B & EC). cbn [with_chains with_next board chains] in B, EC.
  match goal with |- context [update_chain_indexes_in_board dbg ?x _] => change x with (patch (with_chains (with_next g nx) cs)) end. rewrite E. cbn [bind patch chains].
  unfold chains_remove in *. rewrite (vset_pc _ _ _ _ N2 Hcs'). cbn [bind]. split; [reflexivity|]. split; [exact B|].
  unfold vset in Hcs'. destruct (k2 <? length (chains g1)); [|discriminate Hcs']. injection Hcs' as <-. cbn [with_chains chains]. rewrite insert_length, EC.
  unfold chain_put in Hcs. apply bind_ok in Hcs as (? & _ & Hcs). unfold vset in Hcs. destruct (k1 <? length (chains g)); [|discriminate Hcs].
  injection Hcs as <-. apply insert_length.
Qed.

Lemma merge_all_patch dbg same : forall g t g' u, merge_all dbg g t same = Ok (g', u) -> t <> J -> J ∉ same -> bare (board g') ->
  merge_all dbg (patch g) t same = Ok (patch g', u) /\ bare (board g) /\ length (chains g') = length (chains g) /\ u <> J.
Proof.
  unfold merge_all. induction same as [|a same IH]; intros g t g' u H Ht Hs HB; cbn [foldM] in *.
  - injection H as <- <-. auto.
  - apply not_elem_of_cons in Hs as [Ha Hs]. apply bind_ok in H as ([g1 t1] & H1 & H).
    cbn [patch chains]. rewrite !chain_at_pc by congruence.
    apply bind_ok in H1 as (ga & Hga & H1). rewrite Hga. cbn [bind]. apply bind_ok in H1 as (gt & Hgt & H1). rewrite Hgt. cbn [bind].
    fold (patch g). destruct (number_of_liberties ga <? number_of_liberties gt).
    + apply bind_ok in H1 as (g2 & H1 & E). injection E as <- <-. destruct (IH _ _ _ _ H Ht Hs HB) as (A1 & A2 & A3 & A4).
      destruct (merge_patch dbg _ _ _ _ H1 Ht (not_eq_sym Ha) A2) as (B1 & B2 & B3). rewrite B1. cbn [bind]. rewrite A1. split; [reflexivity|]. split; [exact B2|]. split; [congruence|exact A4].
    + apply bind_ok in H1 as (g2 & H1 & E). injection E as <- <-. destruct (IH _ _ _ _ H (not_eq_sym Ha) Hs HB) as (A1 & A2 & A3 & A4).
      destruct (merge_patch dbg _ _ _ _ H1 (not_eq_sym Ha) Ht A2) as (B1 & B2 & B3). rewrite B1. cbn [bind]. rewrite A1. split; [reflexivity|]. split; [exact B2|]. split; [congruence|exact A4].
Qed.

Lemma add_patch dbg g k i g' : add_stone_to_chain dbg g k i = Ok g' -> k <> J -> add_stone_to_chain dbg (patch g) k i = Ok (patch g') /\ board g' = board g.
Proof.
  intros H Hk. unfold add_stone_to_chain in *. cbn [patch next_stone chains] in *. rewrite chain_at_pc by exact Hk.
  apply bind_ok in H as (grp & Hg & H). rewrite Hg. cbn [bind]. apply bind_ok in H as ([[nx o] l] & Hn & H). rewrite Hn. cbn [bind].
  apply bind_ok in H as (num & Hnum & H). rewrite Hnum. cbn [bind]. apply bind_ok in H as (cs & Hcs & H). rewrite (chain_put_pc _ _ _ _ Hk Hcs). cbn [bind].
  apply bind_ok in H as (u & Hu & H). injection H as <-. unfold with_chains, with_next in *. cbn [next_stone board gsize zobrist_hash] in *.
  rewrite Hu. split; reflexivity.
Qed.

Lemma place_patch dbg g i c same libs g' u : place_stone dbg g i c same libs = Ok (g', u) -> J < length (chains g) -> J ∉ same -> i ∉ D -> bare (board g') ->
  place_stone dbg (patch g) i c same libs = Ok (patch g', u).
Proof.
  intros H HJ Hs Hi HB. unfold place_stone in *. destruct same as [|k [|k2 same]].
  - apply create_patch; assumption.
  - apply not_elem_of_cons in Hs as [Hk _]. apply not_eq_sym in Hk. cbn [patch chains]. rewrite chain_at_pc by exact Hk.
    apply bind_ok in H as (g0 & Hg & H). rewrite Hg. cbn [bind]. apply bind_ok in H as (g1 & H1 & H). rewrite H1. cbn [bind].
    apply bind_ok in H as (g2 & H2 & H). rewrite H2. cbn [bind]. apply bind_ok in H as (cs & Hcs & H). rewrite (chain_put_pc _ _ _ _ Hk Hcs). cbn [bind].
    apply bind_ok in H as (g3 & H3 & H). destruct (add_patch dbg _ _ _ _ H3 Hk) as [A1 A2]. 
    match goal with |- context [add_stone_to_chain dbg ?x _ _] => change x with (patch (with_chains g cs)) end. rewrite A1. cbn [bind].
    apply bind_ok in H as (k' & Hk' & H). rewrite Hk'. cbn [bind]. apply bind_ok in H as (b & Hb & H). injection H as <- <-.
    cbn [patch board]. rewrite (vset_pb _ _ _ _ Hi Hb). reflexivity.
  - set (ks := k :: k2 :: same) in *. apply bind_ok in H as ([g1 t1] & H1 & H). apply bind_ok in H as ([g2 t2] & H2 & H).
    apply bind_ok in H as (g3 & H3 & H). apply bind_ok in H as (g4 & H4 & H). apply bind_ok in H as (cs & Hcs & H). injection H as <- <-.
    assert (Hlt : length (chains g) <> J) by lia. cbn [with_chains board] in HB.
    assert (Et1 : t1 = length (chains g)).
    { clear - H1. unfold create_chain in H1. apply bind_ok in H1 as (? & _ & H1). apply bind_ok in H1 as (? & _ & H1). cbn [put_free_spot] in H1.
      apply bind_ok in H1 as (? & _ & H1). injection H1 as _ <-. reflexivity. }
    destruct (merge_all_patch dbg ks _ _ _ _ H2 ltac:(congruence) Hs HB) as (A1 & A2 & A3 & A4).
    destruct (create_patch dbg _ _ _ _ _ _ H1 HJ A2) as (B1 & B2 & B3 & B4).
    rewrite B1. cbn [bind]. rewrite A1. cbn [bind patch chains]. rewrite chain_at_pc by exact A4. rewrite H3. cbn [bind]. rewrite H4. cbn [bind].
    rewrite (chain_put_pc _ _ _ _ A4 Hcs). reflexivity.
Qed.
End Patch.

(** * What a stone placed on its own point forgets *)
Lemma vset_over {A} (v : list A) i x y : vset (<[i := x]> v) i y = vset v i y.
Proof. unfold vset. rewrite insert_length. destruct (i <? length v); [|reflexivity]. f_equal. apply list_insert_insert. Qed.

Lemma create_forget dbg g i x c libs : create_chain dbg (with_board g (<[i := x]> (board g))) i c libs = create_chain dbg g i c libs.
Proof.
  unfold create_chain. cbn [with_board next_stone chains put_free_spot].
  destruct (foldM _ libs EMPTY_LIBERTIES) as [bits| |]; [|reflexivity..]. cbn [bind].
  destruct (vset (next_stone g) i i) as [nx| |] eqn:En; [|reflexivity..]. cbn [bind].
  assert (Ex : nx !! i = Some i).
  { unfold vset in En. destruct (i <? length (next_stone g)) eqn:L; [|discriminate En]. injection En as <-. apply Nat.ltb_lt in L.
    apply list_lookup_insert, L. }
  unfold update_chain_indexes_in_board, with_chains, with_next, with_board. cbn [chains board next_stone gsize zobrist_hash].
  set (cs := chains g ++ _). set (k := length (chains g)).
  destruct (debug_assert dbg _) as [[]| |]; [|reflexivity..]. cbn [bind].
  assert (Ec : chain_at cs k = Ok (new_with_liberties c i bits)).
  { unfold chain_at, vget, cs, k. rewrite lookup_app_r by lia. rewrite Nat.sub_diag. reflexivity. }
  assert (Eg : group_iter dbg (new_with_liberties c i bits) nx = Ok [i]).
  { unfold group_iter. cbn [new_with_liberties g_origin iter_from]. unfold vget. rewrite Ex. cbn [unwrap bind]. rewrite Nat.eqb_refl. reflexivity. }
  rewrite Ec. cbn [bind]. rewrite !(group_for_iter _ _ _ _ _ _ Eg). cbn [foldM]. destruct (nonmax_u16 k); [|reflexivity..]. cbn [bind]. rewrite vset_over. reflexivity.
Qed.

Lemma add_forget dbg g b k i : add_stone_to_chain dbg (with_board g b) k i = (let! g' := add_stone_to_chain dbg g k i in Ok (with_board g' b)).
Proof.
  unfold add_stone_to_chain. cbn [with_board next_stone chains].
  destruct (chain_at (chains g) k) as [grp| |]; [|reflexivity..]. cbn [bind].
  match goal with |- context [bind ?m _] => destruct m as [[[nx o] l]| |]; [|reflexivity..] end. cbn [bind].
  destruct (u16_add _ _ _); [|reflexivity..]. cbn [bind]. destruct (chain_put _ _ _) as [cs| |]; [|reflexivity..]. cbn [bind].
  unfold with_chains, with_next, with_board. cbn [next_stone board gsize zobrist_hash].
  destruct (debug_assert dbg _); reflexivity.
Qed.

Lemma add_board dbg g k i g' : add_stone_to_chain dbg g k i = Ok g' -> board g' = board g.
Proof.
  unfold add_stone_to_chain. intros H. apply bind_ok in H as (grp & _ & H). apply bind_ok in H as ([[nx o] l] & _ & H).
  apply bind_ok in H as (num & _ & H). apply bind_ok in H as (cs & _ & H). apply bind_ok in H as (u & _ & H). injection H as <-. reflexivity.
Qed.

Lemma place_forget dbg g i x c same libs : place_stone dbg (with_board g (<[i := x]> (board g))) i c same libs = place_stone dbg g i c same libs.
Proof.
  destruct same as [|k [|k2 same]]; unfold place_stone.
  - apply create_forget.
  - cbn [with_board chains]. destruct (chain_at (chains g) k) as [grp| |]; [|reflexivity..]. cbn [bind].
    destruct (remove_liberty dbg grp i) as [grp1| |]; [|reflexivity..]. cbn [bind].
    destruct (union_liberties_slice grp1 libs) as [grp2| |]; [|reflexivity..]. cbn [bind].
    destruct (chain_put (chains g) k grp2) as [cs| |]; [|reflexivity..]. cbn [bind].
    change (with_chains (with_board g (<[i:=x]> (board g))) cs) with (with_board (with_chains g cs) (<[i:=x]> (board (with_chains g cs)))).
    rewrite add_forget. destruct (add_stone_to_chain dbg (with_chains g cs) k i) as [g1| |] eqn:Ea; [|reflexivity..]. cbn [bind].
    apply add_board in Ea. destruct (nonmax_u16 k); [|reflexivity..]. cbn [bind with_board board]. rewrite <- Ea, vset_over. reflexivity.
  - rewrite create_forget. reflexivity.
Qed.

(** * Opponents that are not short of the liberty *)
Lemma remove_liberties_none g oppo i : (i < 361)%nat ->
  forall g1, wf0 g1 -> board g1 = board g ->
  (forall k, k ∈ oppo -> exists grp, live g1 k = Some grp) ->
  (forall k grp, live g1 k = Some grp -> lbit (g_liberties grp) i = false /\ exists j, lbit (g_liberties grp) j = true) ->
  exists cs',
    foldM (fun '(cs, dead) k =>
           let! grp := chain_at cs k in
           let! grp' := remove_liberty false grp i in
           let! cs' := chain_put cs k grp' in
           if is_dead grp' then let! dead' := av_push 4 dead k in Ok (cs', dead')
           else Ok (cs', dead)) oppo (chains g1, []) = Ok (cs', []) /\
    length cs' = length (chains g1) /\ wf0 (with_chains g1 cs') /\
    (forall k, live g1 k = None -> live (with_chains g1 cs') k = None) /\
    (forall k grp, live g1 k = Some grp -> exists grp', live (with_chains g1 cs') k = Some grp' /\ g_color grp' = g_color grp /\
        forall j, lbit (g_liberties grp') j = lbit (g_liberties grp) j).
Proof.
  intros Hi. induction oppo as [|k ks IH]; intros g1 W Eb Hk Hbits.
  - exists (chains g1). split; [reflexivity|]. split; [reflexivity|].
    assert (Eg : with_chains g1 (chains g1) = g1) by (destruct g1; reflexivity). rewrite Eg. split; [exact W|]. split; [auto|].
    intros k grp H. exists grp. auto.
  - cbn [foldM]. destruct (Hk k) as (grp & Hl); [left|]. rewrite (chain_at_live _ _ _ Hl). cbn [bind].
    destruct (wf0_chain g1 W k grp Hl) as [Hbo _].
    destruct (remove_liberty_ok false grp i Hbo ltac:(lia) ltac:(discriminate)) as (grp' & E & Sh & Hbo' & Hb). rewrite E. cbn [bind].
    rewrite (chain_put_live _ _ _ _ Hl). cbn [bind].
    destruct (Hbits k grp Hl) as [B0 (j0 & B1)].
    assert (Hb' : forall j, lbit (g_liberties grp') j = lbit (g_liberties grp) j).
    { intros j. rewrite Hb. destruct (Nat.eqb_spec j i) as [->|]; [congruence|reflexivity]. }
    assert (Ed : is_dead grp' = false).
    { apply not_true_iff_false. rewrite is_dead_spec by exact Hbo'. intros H. specialize (H j0). rewrite Hb' in H. congruence. }
    rewrite Ed. destruct (wf0_put g1 k grp grp' W Hl Sh Hbo') as [W2 V2].
    set (g2 := with_chains g1 (<[k:=Some grp']> (chains g1))) in *.
    destruct (IH g2) as (cs' & E' & L' & W' & N' & V').
    + exact W2.
    + exact Eb.
    + intros k0 Hk0. rewrite V2. destruct (decide (k0 = k)); [eauto|]. apply Hk. right. exact Hk0.
    + intros k0 gr Hg. rewrite V2 in Hg. destruct (decide (k0 = k)) as [->|]; [|eauto]. injection Hg as <-.
      rewrite Hb'. split; [exact B0|]. exists j0. rewrite Hb'. exact B1.
    + exists cs'. split; [exact E'|]. split; [rewrite L'; apply insert_length|]. split; [exact W'|]. split.
      * intros k0 H0. apply N'. rewrite V2. destruct (decide (k0 = k)); [congruence|exact H0].
      * intros k0 gr Hg. destruct (decide (k0 = k)) as [->|Hne].
        { destruct (V' k grp') as (gr' & A1 & A2 & A3); [rewrite V2; destruct (decide (k = k)); [reflexivity|contradiction]|].
          assert (gr = grp) by congruence. subst gr. exists gr'. split; [exact A1|]. split; [rewrite A2; symmetry; apply Sh|].
          intros j. rewrite A3. apply Hb'. }
        { apply (V' k0 gr). rewrite V2. destruct (decide (k0 = k)); [contradiction|exact Hg]. }
Qed.

(** * The board without one of its chains *)
Definition strip (J : nat) (g : goban) : goban :=
  mkGoban (<[J := None]> (chains g)) ((fun x => if decide (x = Some J) then None else x) <$> board g) (next_stone g) (gsize g) (zobrist_hash g).

Lemma strip_cell J g j : cell (strip J g) j = if decide (cell g j = Some J) then None else cell g j.
Proof.
  unfold cell, strip. cbn [board]. rewrite list_lookup_fmap. destruct (board g !! j) as [[k|]|] eqn:E; cbn; repeat (destruct (decide _)); cbn; congruence.
Qed.

Lemma strip_live J g k : J < length (chains g) -> live (strip J g) k = if decide (k = J) then None else live g k.
Proof.
  intros H. unfold live, strip. cbn [chains]. destruct (decide (k = J)) as [->|Hk]; [rewrite list_lookup_insert by exact H; reflexivity|].
  rewrite list_lookup_insert_ne by congruence. reflexivity.
Qed.

Lemma strip_wf0 J g : J < length (chains g) -> wf0 g -> wf0 (strip J g).
Proof.
  intros HJ W. constructor.
  - cbn. rewrite fmap_length. apply W.
  - apply W.
  - cbn. rewrite insert_length. apply W.
  - intros i k H. rewrite strip_cell in H. destruct (decide _) as [D|D]; [discriminate H|]. rewrite strip_live by exact HJ.
    destruct (decide (k = J)) as [->|]; [congruence|]. apply (wf0_cell g W i k H).
  - intros k grp H. rewrite strip_live in H by exact HJ. destruct (decide (k = J)) as [|Hk]; [discriminate H|].
    destruct (wf0_chain g W k grp H) as [B (l & R & M)]. split; [exact B|]. exists l. split; [exact R|].
    intros i. rewrite M, strip_cell. destruct (decide (cell g i = Some J)) as [D|D]; [rewrite D; split; congruence|reflexivity].
Qed.

Definition rest_of (J i : nat) (g : goban) : list nat := filter (fun j => cell g j = Some J /\ j <> i) (seq 0 361).

Lemma elem_of_rest J i g j : wf0 g -> j ∈ rest_of J i g <-> cell g j = Some J /\ j <> i.
Proof.
  intros W. unfold rest_of. rewrite elem_of_list_filter, elem_of_seq. split; [tauto|]. intros H. split; [exact H|].
  destruct H as [H _]. apply (wf0_cell_lt g j J W) in H. lia.
Qed.

Local Opaque rest_of.
Lemma patch_strip J i old g : wf0 g -> live g J = Some old -> cell g i = Some J ->
  patch J old (rest_of J i g) (strip J g) = with_board g (<[i := None]> (board g)).
Proof.
  intros W Hl Hc. unfold patch, strip, with_board. cbn [chains board next_stone gsize zobrist_hash]. f_equal.
  - rewrite list_insert_insert. apply list_insert_id. apply live_lookup, Hl.
  - apply list_eq. intros j. rewrite pb_lookup, list_lookup_fmap. destruct (decide (j = i)) as [->|Hj].
    + apply cell_lt in Hc as Li. rewrite list_lookup_insert by exact Li. apply cell_lookup in Hc as Hc'. rewrite Hc'. cbn.
      destruct (decide (i ∈ _)) as [D|D]; [apply elem_of_rest in D; [tauto|exact W]|]. destruct (decide _); [reflexivity|congruence].
    + rewrite list_lookup_insert_ne by congruence. destruct (board g !! j) as [x|] eqn:Ej; [|reflexivity]. cbn. f_equal.
      destruct (decide (j ∈ _)) as [D|D].
      * apply elem_of_rest in D as [D _]; [|exact W]. apply cell_lookup in D. congruence.
      * destruct (decide (x = Some J)) as [->|]; [|reflexivity]. exfalso. apply D. apply elem_of_rest; [exact W|]. split; [|exact Hj].
        apply cell_lookup, Ej.
Qed.

(** * The stone on the occupied point, release build *)
Definition alive (g : goban) : Prop := forall k grp, live g k = Some grp -> exists j, lbit (g_liberties grp) j = true.

Lemma col_eq g j k grp : cell g j = Some k -> live g k = Some grp -> col g j = Some (g_color grp).
Proof. intros H1 H2. unfold col. rewrite H1, H2. reflexivity. Qed.

Record over (n : nat) (g : goban) (i : nat) (c : color) (g2 : goban) (u : nat) (grpu : group) : Prop := mkOver {
  ov_board : length (board g2) = 361;
  ov_size : gsize g2 = gsize g;
  ov_live : live g2 u = Some grpu;
  ov_color : g_color grpu = c;
  ov_at : cell g2 i = Some u;
  ov_col : forall j, col g2 j = if decide (j = i) then Some c else col g j;
  ov_dead : is_dead grpu = true <-> forall j, j ∈ nb n i -> col g j = Some (opp c);
  ov_cell : forall j k, cell g2 j = Some k -> exists grp, live g2 k = Some grp /\ bits_ok (g_liberties grp) /\ lbit (g_liberties grp) i = false;
  ov_alone : is_dead grpu = true -> group_iter false grpu (next_stone g2) = Ok [i] /\ g_num_stones grpu = 1 /\ forall j, cell g2 j = Some u -> j = i
}.

Lemma over_other dbg n g g1 i c J old same libs :
  (dbg = true -> same = []) -> wf n g -> i < n * n -> cell g i = Some J -> live g1 J = Some old -> J ∉ same -> (N.of_nat (length (chains g)) < 65535)%N ->
  wf0 g1 -> board g1 = board g -> gsize g1 = gsize g -> length (chains g1) = length (chains g) ->
  (forall k grp, live g k = Some grp -> exists grp', live g1 k = Some grp' /\ g_color grp' = g_color grp /\
     lbit (g_liberties grp') i = false) ->
  (forall k grp, k ∈ same -> live g1 k = Some grp -> exists j, lbit (g_liberties grp) j = true) ->
  (forall k, live g k = None -> live g1 k = None) ->
  NoDup same -> (forall k, k ∈ same <-> exists j grp, j ∈ nb n i /\ cell g j = Some k /\ live g k = Some grp /\ g_color grp = c) ->
  (forall j, j ∈ libs <-> j ∈ nb n i /\ cell g j = None) ->
  exists g2 u grpu, place_stone dbg g1 i c same libs = Ok (g2, u) /\ over n g i c g2 u grpu /\
    (forall k grp, live g2 k = Some grp -> k <> J -> exists l, ring (next_stone g2) grp l /\ forall j, j ∈ l -> j < 361) /\
    live g2 J = Some old /\ length (next_stone g2) = 361 /\ (same = [] -> next_stone g2 !! i = Some i).
Proof.
  intros Hdb W Hin Hc HJ HJs Hlen W1 Eb Es Ecs V Val Vn Nd Hsame Hlibs.
  pose proof (wf_n n g W) as Hn. pose proof (sq_le n Hn) as Hsq.
  assert (Ecell : forall j, cell g1 j = cell g j) by (intros j; unfold cell; rewrite Eb; reflexivity).
  assert (HJlt : J < length (chains g1)) by (eapply live_lt; exact HJ).
  set (D := rest_of J i g1). set (gs := strip J g1).
  assert (HD : forall j, j ∈ D <-> cell g j = Some J /\ j <> i) by (intros j; unfold D; rewrite elem_of_rest by exact W1; rewrite Ecell; reflexivity).
  assert (Wgs : wf0 gs) by (apply strip_wf0; assumption).
  assert (Cgs : forall j, cell gs j = if decide (cell g j = Some J) then None else cell g j) by (intros j; unfold gs; rewrite strip_cell, Ecell; reflexivity).
  assert (Vgs : forall k, live gs k = if decide (k = J) then None else live g1 k) by (intros k; apply strip_live; exact HJlt).
  assert (Hs1 : forall k, k ∈ same -> exists gk, live g1 k = Some gk /\ g_color gk = c /\ lbit (g_liberties gk) i = false /\ exists j, lbit (g_liberties gk) j = true).
  { intros k Hk. pose proof (proj1 (Hsame k) Hk) as (j & grp & _ & _ & Hl & Hcol). destruct (V k grp Hl) as (gk & A1 & A2 & A3).
    exists gk. split; [exact A1|]. split; [congruence|]. split; [exact A3|]. apply (Val k gk Hk A1). }
  destruct (place_spec dbg gs i c same libs) as [(E & F & _)|(g' & u & grpu & E & W' & Sz & Z & L & Hu & C' & V' & Colu & Bu)].
  { exact Wgs. } { lia. } { rewrite Cgs. destruct (decide _); [reflexivity|contradiction]. } { exact Nd. }
  { intros k Hk. destruct (Hs1 k Hk) as (gk & A1 & A2 & _). exists gk. split; [|split; [exact A2|intros Ed; rewrite (Hdb Ed) in Hk; inversion Hk]].
    rewrite Vgs. destruct (decide (k = J)) as [->|]; [contradiction|exact A1]. }
  { intros j Hj. apply Hlibs in Hj as [Hj _]. apply nb_bound in Hj; lia. }
  { intros H. apply Hlibs in H as [H _]. revert H. apply nb_irrefl; lia. }
  { exfalso. cbn in F. rewrite insert_length, Ecs in F. lia. }
  assert (Huk : forall k, k <> u -> k ∉ same -> live g' k = live gs k).
  { intros k N1 N2. rewrite V'. destruct (decide (k = u)); [contradiction|]. destruct (decide (k ∈ same)); [contradiction|reflexivity]. }
  assert (HuJ : u <> J).
  { intros ->. destruct Hu as [Hu|Hu]; [|contradiction]. cbn in Hu. rewrite insert_length in Hu. lia. }
  assert (HB : bare D (board g')).
  { intros j Hj. apply HD in Hj as [Hj Hji]. apply cell_None; [rewrite (wf0_board g' W'); rewrite <- Ecell in Hj; apply (wf0_cell_lt g1 j J W1 Hj)|].
    rewrite C'. rewrite Cgs. destruct (decide (cell g j = Some J)); [|contradiction]. destruct (decide _) as [[->|H]|]; [contradiction| |reflexivity].
    apply none_mapsome in H. destruct H. }
  assert (HiD : i ∉ D) by (intros H; apply HD in H; tauto).
  pose proof (place_patch J old D dbg gs i c same libs g' u E) as HP. specialize (HP ltac:(cbn; rewrite insert_length; exact HJlt) HJs HiD HB).
  assert (EP : patch J old D gs = with_board g1 (<[i := None]> (board g1))) by (apply patch_strip; [assumption..|rewrite Ecell; exact Hc]).
  rewrite EP, place_forget in HP.
  set (g2 := patch J old D g') in *. exists g2, u, grpu. split; [exact HP|].
  assert (Cell2 : forall j, cell g2 j = if decide (j ∈ D) then Some J else cell g' j).
  { intros j. unfold g2, cell. cbn [patch board]. rewrite pb_lookup. destruct (board g' !! j) as [x|] eqn:Ej; cbn; [destruct (decide _); reflexivity|].
    destruct (decide (j ∈ D)) as [H|]; [|reflexivity]. specialize (HB j H). congruence. }
  assert (HJ' : J < length (chains g')) by (rewrite L; cbn; rewrite insert_length; lia).
  assert (Live2 : forall k, live g2 k = if decide (k = J) then Some old else live g' k).
  { intros k. unfold g2, live. cbn [patch chains]. destruct (decide (k = J)) as [->|Hk]; [rewrite list_lookup_insert by exact HJ'; reflexivity|].
    rewrite list_lookup_insert_ne by congruence. reflexivity. }
  assert (Liveu : live g2 u = Some grpu).
  { rewrite Live2. destruct (decide (u = J)); [contradiction|]. rewrite V'. destruct (decide (u = u)); [reflexivity|contradiction]. }
  assert (Gi : cell g' i = Some u) by (rewrite C'; destruct (decide _) as [|H]; [reflexivity|destruct H; auto]).
  assert (G2i : cell g2 i = Some u) by (rewrite Cell2; destruct (decide (i ∈ D)); [contradiction|exact Gi]).
  assert (Fresh : forall k, k ∉ same -> is_Some (live g k) -> k <> u).
  { intros k N1 [x Hx] ->. destruct Hu as [Hu|Hu]; [|contradiction]. cbn in Hu. rewrite insert_length in Hu. apply live_lt in Hx. lia. }
  assert (Hk2 : forall j, j <> i -> match cell g j with
      | Some k => if decide (k ∈ same) then cell g2 j = Some u else cell g2 j = Some k /\ k <> u /\ live g2 k = live g1 k
      | None => cell g2 j = None end).
  { intros j Hj. rewrite Cell2. destruct (cell g j) as [k|] eqn:Ej.
    - destruct (decide (k = J)) as [->|NJ].
      + destruct (decide (J ∈ same)); [contradiction|]. destruct (decide (j ∈ D)) as [_|H]; [|destruct H; apply HD; auto].
        split; [reflexivity|]. split; [congruence|]. rewrite Live2. destruct (decide (J = J)); [|contradiction]. congruence.
      + assert (HjD : j ∉ D) by (intros H; apply HD in H as [H _]; congruence). destruct (decide (j ∈ D)); [contradiction|].
        rewrite C', Cgs, Ej. destruct (decide (Some k = Some J)); [congruence|].
        destruct (decide (k ∈ same)) as [Hk|Hk].
        * destruct (decide _) as [|H]; [reflexivity|]. destruct H. right. apply list_In_mapsome, Hk.
        * destruct (decide _) as [[H|H]|_]; [contradiction|apply list_In_mapsome in H; contradiction|]. split; [reflexivity|].
          assert (Hku : k <> u) by (apply Fresh; [exact Hk|apply (wf0_cell g (wf_0 n g W) j k Ej)]). split; [exact Hku|].
          rewrite Live2. destruct (decide (k = J)); [contradiction|]. rewrite Huk by assumption. rewrite Vgs. destruct (decide (k = J)); [contradiction|reflexivity].
    - assert (HjD : j ∉ D) by (intros H; apply HD in H as [H _]; congruence). destruct (decide (j ∈ D)); [contradiction|].
      rewrite C', Cgs, Ej. destruct (decide (None = Some J)); [congruence|]. destruct (decide _) as [[H|H]|_]; [contradiction| |reflexivity].
      apply none_mapsome in H. destruct H. }
  destruct (wf0_chain g' W' u grpu) as [Bou (lu & Ru & Mu)]; [rewrite V'; destruct (decide (u = u)); [reflexivity|contradiction]|].
  assert (Dead : is_dead grpu = true <-> same = [] /\ libs = []).
  { rewrite is_dead_spec by exact Bou. split.
    - intros H. split.
      + destruct same as [|k ks]; [reflexivity|]. exfalso. destruct (Hs1 k) as (gk & A1 & A2 & A3 & (j & A4)); [left|].
        enough (lbit (g_liberties grpu) j = true) by (rewrite H in *; discriminate). apply Bu. split; [congruence|]. right.
        exists k, gk. split; [left|]. split; [|exact A4]. rewrite Vgs. destruct (decide (k = J)) as [->|]; [destruct HJs; left|exact A1].
      + destruct libs as [|j js]; [reflexivity|]. exfalso.
        enough (lbit (g_liberties grpu) j = true) by (rewrite H in *; discriminate). apply Bu. split; [|left; left].
        intros ->. destruct (proj1 (Hlibs i) ltac:(left)) as [H1 _]. revert H1. apply nb_irrefl; lia.
    - intros [-> ->] j. apply not_true_iff_false. intros H. apply Bu in H as [_ [H|(k & gk & H & _)]]; inversion H. }
  assert (Lone : same = [] -> lu = [i]).
  { intros ->. assert (Hl : forall j, j ∈ lu <-> j = i).
    { intros j. rewrite Mu, C'. destruct (decide _) as [[H|H]|H].
      - subst j. split; auto.
      - apply elem_of_list_fmap in H as (? & _ & H). inversion H.
      - split; [|intros ->; destruct H; auto]. intros Hj. exfalso. destruct Hu as [Hu|Hu]; [|inversion Hu].
        destruct (wf0_cell gs Wgs j u Hj) as [x Hx]. apply live_lt in Hx. lia. }
    destruct lu as [|a [|b lu]].
    - exfalso. enough (i ∈ []) as Hx by inversion Hx. apply Hl. reflexivity.
    - f_equal. apply Hl. left.
    - exfalso. destruct Ru as [_ _ _ Nd' _]. apply NoDup_cons in Nd' as [Nd' _]. apply Nd'. rewrite (proj1 (Hl a)), (proj1 (Hl b)); [left|right; left|left]. }
  split; [|split; [|split; [|split]]].
  2: { intros k grp Hk NJ. rewrite Live2 in Hk. destruct (decide (k = J)); [contradiction|].
    destruct (wf0_chain g' W' k grp Hk) as [_ (l & R & M)]. exists l. split; [exact R|]. intros j Hj. apply M in Hj. apply (wf0_cell_lt g' j k W' Hj). }
  2: { rewrite Live2. destruct (decide (J = J)); [reflexivity|contradiction]. }
  2: { apply W'. }
  2: { intros H. rewrite (Lone H) in Ru. destruct Ru as [[R1 _] R2 _ _ _]. cbn in R1, R2. cbn. congruence. }
  constructor.
  - unfold g2. cbn [patch board]. unfold pb. rewrite imap_length. apply W'.
  - unfold g2. cbn [patch gsize]. rewrite Sz. exact Es.
  - exact Liveu.
  - exact Colu.
  - exact G2i.
  - intros j. destruct (decide (j = i)) as [->|Hj]; [rewrite (col_eq g2 i u grpu G2i Liveu), Colu; reflexivity|].
    specialize (Hk2 j Hj). unfold col at 2. destruct (cell g j) as [k|] eqn:Ej; [|unfold col; rewrite Hk2; reflexivity].
    destruct (wf0_cell g (wf_0 n g W) j k Ej) as [grp Hg]. rewrite Hg. destruct (decide (k ∈ same)) as [Hk|Hk].
    + rewrite (col_eq g2 j u grpu Hk2 Liveu), Colu. apply Hsame in Hk as (? & grp' & _ & _ & A1 & A2). congruence.
    + destruct Hk2 as (A1 & A2 & A3). destruct (V k grp Hg) as (grp' & B1 & B2 & _). rewrite (col_eq g2 j k grp'); [congruence|exact A1|congruence].
  - rewrite Dead. split.
    + intros [-> ->] j Hj. destruct (cell g j) as [k|] eqn:Ej.
      * destruct (wf0_cell g (wf_0 n g W) j k Ej) as [grp Hg]. rewrite (col_eq g j k grp Ej Hg). f_equal. apply ne_opp. intros Hx.
        enough (H : k ∈ []) by inversion H. apply Hsame. exists j, grp. auto.
      * enough (H : j ∈ []) by inversion H. apply Hlibs. auto.
    + intros H. split.
      * destruct same as [|k ks]; [reflexivity|]. destruct (proj1 (Hsame k) ltac:(left)) as (j & grp & A1 & A2 & A3 & A4).
        specialize (H j A1). rewrite (col_eq g j k grp A2 A3) in H. exfalso. injection H as H. apply (opp_ne c). congruence.
      * destruct libs as [|j js]; [reflexivity|]. destruct (proj1 (Hlibs j) ltac:(left)) as [A1 A2]. specialize (H j A1).
        unfold col in H. rewrite A2 in H. discriminate H.
  - assert (Hbu : lbit (g_liberties grpu) i = false) by (apply not_true_iff_false; intros H; apply Bu in H; tauto).
    intros j k Hj. destruct (decide (j = i)) as [->|Nj].
    + assert (k = u) by congruence. subst k. exists grpu. auto.
    + specialize (Hk2 j Nj). destruct (cell g j) as [k0|] eqn:Ej; [|congruence]. destruct (decide (k0 ∈ same)).
      * assert (k = u) by congruence. subst k. exists grpu. auto.
      * destruct Hk2 as (A1 & A2 & A3). assert (k = k0) by congruence. subst k0.
        destruct (wf0_cell g (wf_0 n g W) j k Ej) as [grp Hg]. destruct (V k grp Hg) as (grp' & B1 & B2 & B3). exists grp'. rewrite A3. split; [exact B1|].
        split; [|exact B3]. apply (wf0_chain g1 W1 k grp' B1).
  - intros H. apply Dead in H as [Hs0 _]. specialize (Lone Hs0). subst lu. split; [|split].
    + apply (ring_iter false (next_stone g') grpu [i] Ru). intros j Hj. apply elem_of_list_singleton in Hj. subst j. rewrite (wf0_next g' W'). lia.
    + destruct Ru as [_ _ _ _ Hnum]. cbn in Hnum. congruence.
    + intros j Hj. rewrite Cell2 in Hj. destruct (decide (j ∈ D)); [congruence|]. apply Mu in Hj. apply elem_of_list_singleton, Hj.
Qed.

Lemma add_release g k grp i : live g k = Some grp -> i < 361 -> g_origin grp < 361 -> g_last grp < 361 -> length (next_stone g) = 361 ->
  exists nx grp', add_stone_to_chain false g k i = Ok (with_chains (with_next g nx) (<[k := Some grp']> (chains g))) /\
    g_color grp' = g_color grp /\ g_liberties grp' = g_liberties grp.
Proof.
  intros Hl Hi Ho Hla Hn. unfold add_stone_to_chain. rewrite (chain_at_live _ _ _ Hl). cbn [bind].
  assert (Hv : forall (v : list nat) a b, length v = 361 -> a < 361 -> vset v a b = Ok (<[a := b]> v)) by (intros v a b E L; apply vset_ok; lia).
  assert (Hu : exists num, u16_add false (g_num_stones grp) 1 = Ok num) by (unfold u16_add; destruct (_ <? _)%N; eauto). destruct Hu as (num & Hu).
  destruct (i <? g_origin grp).
  - rewrite Hv by assumption. cbn [bind]. rewrite Hv by (try assumption; rewrite insert_length; exact Hn). cbn [bind]. rewrite Hu. cbn [bind].
    rewrite (chain_put_live _ _ _ _ Hl). cbn [bind debug_assert]. eexists _, _. split; [reflexivity|]. split; reflexivity.
  - rewrite Hv by assumption. cbn [bind]. rewrite Hv by (try assumption; rewrite insert_length; exact Hn). cbn [bind]. rewrite Hu. cbn [bind].
    rewrite (chain_put_live _ _ _ _ Hl). cbn [bind debug_assert]. eexists _, _. split; [reflexivity|]. split; reflexivity.
Qed.

Lemma over_own n g g1 i c J old same libs :
  wf n g -> i < n * n -> cell g i = Some J -> live g1 J = Some old -> J ∈ same -> (N.of_nat (length (chains g)) < 65535)%N ->
  wf0 g1 -> board g1 = board g -> gsize g1 = gsize g -> length (chains g1) = length (chains g) ->
  (forall k grp, live g k = Some grp -> exists grp', live g1 k = Some grp' /\ g_color grp' = g_color grp /\
     lbit (g_liberties grp') i = false /\ exists j, lbit (g_liberties grp') j = true) ->
  NoDup same -> (forall k, k ∈ same <-> exists j grp, j ∈ nb n i /\ cell g j = Some k /\ live g k = Some grp /\ g_color grp = c) ->
  (forall j, j ∈ libs <-> j ∈ nb n i /\ cell g j = None) ->
  exists g2 u grpu, place_stone false g1 i c same libs = Ok (g2, u) /\ over n g i c g2 u grpu.
Proof.
  intros W Hin Hc HJ HJs Hlen W1 Eb Es Ecs V Nd Hsame Hlibs.
  pose proof (wf_n n g W) as Hn. pose proof (sq_le n Hn) as Hsq.
  assert (Ecell : forall j, cell g1 j = cell g j) by (intros j; unfold cell; rewrite Eb; reflexivity).
  destruct (proj1 (Hsame J) HJs) as (j0 & grp0 & Hj0 & Hcj0 & Hl0 & Hcol0).
  assert (Es1 : same = [J]).
  { assert (H : forall k, k ∈ same -> k = J).
    { intros k Hk. apply Hsame in Hk as (j & grp & A1 & A2 & A3 & A4). symmetry. apply (wf_max n g W i j J k A1 Hc A2).
      rewrite (col_eq g i J grp0 Hc Hl0), (col_eq g j k grp A2 A3). congruence. }
    destruct same as [|a [|b l]]; [inversion HJs|f_equal; apply H; left|]. exfalso. apply NoDup_cons in Nd as [Nd _]. apply Nd.
    rewrite (H a), (H b); [left|right; left|left]. }
  subst same. cbn [place_stone]. rewrite (chain_at_live _ _ _ HJ). cbn [bind].
  destruct (wf0_chain g1 W1 J old HJ) as [Bo (l & R & M)].
  destruct (remove_liberty_ok false old i Bo ltac:(lia) ltac:(discriminate)) as (o1 & E1 & S1 & Bo1 & B1). rewrite E1. cbn [bind].
  destruct (union_liberties_ok o1 libs Bo1) as (o2 & E2 & S2 & Bo2 & B2).
  { apply Forall_forall. intros j Hj. apply Hlibs in Hj as [Hj _]. apply nb_bound in Hj; lia. }
  rewrite E2. cbn [bind]. rewrite (chain_put_live _ _ _ _ HJ). cbn [bind].
  destruct (wf0_put g1 J old o2 W1 HJ) as [W2 V2].
  { destruct S1 as (? & ? & ? & ?), S2 as (? & ? & ? & ?). repeat split; congruence. }
  { exact Bo2. }
  set (gp := with_chains g1 (<[J:=Some o2]> (chains g1))) in *.
  assert (HJp : live gp J = Some o2) by (rewrite V2; destruct (decide (J = J)); [reflexivity|contradiction]).
  destruct (V J grp0 Hl0) as (old' & D1 & D2 & D3 & (jl & D4)). assert (old' = old) by congruence. subst old'.
  assert (Hor : g_origin o2 < 361 /\ g_last o2 < 361).
  { destruct (wf0_chain gp W2 J o2 HJp) as [_ (l2 & [_ Hh Hla _ _] & M2)]. split.
    - destruct l2 as [|x l2]; [discriminate Hh|]. injection Hh as <-. apply (wf0_cell_lt gp x J W2). apply M2. left.
    - apply last_Some_elem_of in Hla. apply (wf0_cell_lt gp _ J W2). apply M2, Hla. }
  destruct (add_release gp J o2 i HJp ltac:(lia) (proj1 Hor) (proj2 Hor) (wf0_next gp W2)) as (nx & o3 & E3 & C3 & L3).
  rewrite E3. cbn [bind].
  assert (HJlt : J < length (chains g1)) by (eapply live_lt; exact HJ).
  rewrite nonmax_ok by lia. cbn [bind with_chains with_next board].
  assert (Hbi : board g1 !! i = Some (Some J)) by (apply cell_lookup; rewrite Ecell; exact Hc).
  rewrite vset_ok by (rewrite (wf0_board gp W2); lia). cbn [bind]. change (board gp) with (board g1). rewrite (list_insert_id (board g1)) by exact Hbi.
  eexists _, J, o3. split; [reflexivity|].
  match goal with |- over _ _ _ _ ?x _ _ => set (g2 := x) end.
  assert (Cell2 : forall j, cell g2 j = cell g j) by (intros j; rewrite <- Ecell; reflexivity).
  assert (Live2 : forall k, live g2 k = if decide (k = J) then Some o3 else live g1 k).
  { intros k. unfold live, g2. cbn [with_board with_chains chains gp]. rewrite list_insert_insert. destruct (decide (k = J)) as [->|Hk].
    - rewrite list_lookup_insert by exact HJlt. reflexivity.
    - rewrite list_lookup_insert_ne by congruence. reflexivity. }
  assert (LJ : live g2 J = Some o3) by (rewrite Live2; destruct (decide (J = J)); [reflexivity|contradiction]).
  assert (Cc : g_color o3 = c) by (destruct S1 as (? & _), S2 as (? & _); congruence).
  assert (Nd' : is_dead o3 = false).
  { apply not_true_iff_false. rewrite is_dead_spec by (rewrite L3; exact Bo2). intros H. specialize (H jl). rewrite L3 in H.
    enough (lbit (g_liberties o2) jl = true) by congruence. apply B2. right. rewrite B1. destruct (Nat.eqb_spec jl i) as [->|]; [congruence|exact D4]. }
  constructor.
  - apply W1.
  - exact Es.
  - exact LJ.
  - exact Cc.
  - rewrite Cell2. exact Hc.
  - intros j. destruct (decide (j = i)) as [->|Hj]; [rewrite (col_eq g2 i J o3); [congruence|rewrite Cell2; exact Hc|exact LJ]|].
    unfold col. rewrite Cell2. destruct (cell g j) as [k|] eqn:Ej; [|reflexivity]. rewrite Live2.
    destruct (wf0_cell g (wf_0 n g W) j k Ej) as [grp Hg]. rewrite Hg. destruct (decide (k = J)) as [->|]; [congruence|].
    destruct (V k grp Hg) as (grp' & A1 & A2 & _). rewrite A1. congruence.
  - rewrite Nd'. split; [discriminate|]. intros H. specialize (H j0 Hj0). rewrite (col_eq g j0 J grp0 Hcj0 Hl0) in H.
    injection H as H. destruct (opp_ne c). congruence.
  - intros j k Hj. rewrite Cell2 in Hj. rewrite Live2. destruct (decide (k = J)) as [->|Hk].
    + exists o3. split; [reflexivity|]. rewrite L3. split; [exact Bo2|]. apply not_true_iff_false. intros H. apply B2 in H as [H|H].
      * apply Hlibs in H as [H _]. revert H. apply nb_irrefl; lia.
      * rewrite B1, Nat.eqb_refl in H. discriminate H.
    + destruct (wf0_cell g (wf_0 n g W) j k Hj) as [grp Hg]. destruct (V k grp Hg) as (grp' & A1 & A2 & A3 & _). exists grp'. split; [exact A1|].
      split; [apply (wf0_chain g1 W1 k grp' A1)|exact A3].
  - rewrite Nd'. discriminate.
Qed.

Lemma over_push n g r cc c : wf n g -> alive g -> r < n -> cc < n -> cell g (r * n + cc) <> None -> (N.of_nat (length (chains g)) < 65535)%N ->
  exists g2 u grpu, push_wth_feedback false g (r, cc) c = Ok (g2, [], u) /\ over n g (r * n + cc) c g2 u grpu.
Proof.
  intros W Al Hr Hcc. set (i := r * n + cc). intros Hi Hlen. destruct (cell g i) as [J|] eqn:Hc; [|contradiction].
  pose proof (wf_n n g W) as Hn. pose proof (wf_0 n g W) as W0. pose proof (sq_le n Hn) as Hsq.
  assert (Hin : i < n * n) by (apply idx_bound; assumption).
  unfold push_wth_feedback. rewrite (wf_size n g W), two_idx. fold i. rewrite neighbors_idx_sq by assumption. cbn [bind].
  destruct (classify_spec g c (nb n i) W0) as (same & oppo & libs & Ec & Nd1 & Nd2 & L1 & L2 & Hsame & Hoppo & Hlibs).
  { intros j Hj. apply nb_bound in Hj; lia. } { apply nb_length. }
  rewrite Ec. cbn [bind].
  assert (Hbits : forall k grp, live g k = Some grp -> lbit (g_liberties grp) i = false /\ exists j, lbit (g_liberties grp) j = true).
  { intros k grp Hg. split; [|apply (Al k grp Hg)]. apply not_true_iff_false. intros H. apply (wf_lib n g W k grp i Hg) in H as [H _]. congruence. }
  destruct (remove_liberties_none g oppo i ltac:(lia) g W0 eq_refl) as (cs & Erl & Lcs & W1 & N1 & V1).
  { intros k Hk. apply Hoppo in Hk as (_ & grp & _ & _ & H & _). eauto. } { exact Hbits. }
  fold (remove_liberties false (chains g) oppo i) in Erl. rewrite Erl. cbn [bind]. set (g1 := with_chains g cs) in *.
  assert (V : forall k grp, live g k = Some grp -> exists grp', live g1 k = Some grp' /\ g_color grp' = g_color grp /\
     lbit (g_liberties grp') i = false /\ exists j, lbit (g_liberties grp') j = true).
  { intros k grp Hg. destruct (V1 k grp Hg) as (grp' & A1 & A2 & A3). exists grp'. split; [exact A1|]. split; [exact A2|]. rewrite A3.
    destruct (Hbits k grp Hg) as [B1 (j & B2)]. split; [exact B1|]. exists j. rewrite A3. exact B2. }
  destruct (wf0_cell g W0 i J Hc) as [old0 Hold0]. destruct (V J old0 Hold0) as (old & Hold & _).
  assert (X : exists g2 u grpu, place_stone false g1 i c same libs = Ok (g2, u) /\ over n g i c g2 u grpu).
  { destruct (decide (J ∈ same)) as [HJ|HJ].
    - apply (over_own n g g1 i c J old same libs); try assumption; reflexivity.
    - destruct (over_other false n g g1 i c J old same libs) as (g2 & u & grpu & E & O & _); try assumption; try reflexivity; [discriminate|..].
      { intros k grp Hk. destruct (V k grp Hk) as (grp' & A1 & A2 & A3 & _). eauto. }
      { intros k grp Hk Hg. apply Hsame in Hk as (_ & grp0 & _ & _ & Hk & _). destruct (V k grp0 Hk) as (grp' & A1 & _ & _ & A4). assert (grp' = grp) as <- by congruence. exact A4. }
      exists g2, u, grpu. split; assumption. }
  destruct X as (g2 & u & grpu & E & O). rewrite E. cbn [bind]. rewrite index_zobrist_ok by lia. cbn [bind].
  eexists _, u, grpu. split; [reflexivity|]. destruct O. constructor; assumption.
Qed.

(** the stone that finds no liberty is taken off again *)
Lemma over_remove n g i c g2 u grpu : wf n g -> i < n * n -> over n g i c g2 u grpu -> is_dead grpu = true ->
  exists g3, remove_chain false g2 u = Ok g3 /\ gsize g3 = gsize g /\ length (board g3) = 361 /\
    (forall j k, cell g3 j = Some k -> is_Some (live g3 k)) /\ (forall j, col g3 j = if decide (j = i) then None else col g j).
Proof.
  intros W Hin O Hd. pose proof (wf_n n g W) as Hn. pose proof (sq_le n Hn) as Hsq.
  destruct (ov_alone _ _ _ _ _ _ _ O Hd) as (Ei & Hnum & Hone).
  unfold remove_chain. rewrite (chain_at_live _ _ _ (ov_live _ _ _ _ _ _ _ O)). cbn [bind]. rewrite (group_for_iter _ _ _ _ _ _ Ei). cbn [foldM].
  pose proof (ov_board _ _ _ _ _ _ _ O) as Hb. pose proof (ov_size _ _ _ _ _ _ _ O) as Hs. rewrite (wf_size n g W) in Hs.
  destruct (connected_spec false n g2 i Hn Hs Hb Hin) as (l & El & Nl & Hl). rewrite El. cbn [bind].
  set (ks := List.filter _ l).
  assert (Hks : forall k, k ∈ ks -> k <> u /\ exists j, cell g2 j = Some k).
  { intros k Hk. unfold ks in Hk. apply elem_of_list_In, filter_In in Hk as [Hk Hu]. apply elem_of_list_In, Hl in Hk as (j & _ & Hj).
    rewrite negb_true_iff, Nat.eqb_neq in Hu. eauto. }
  destruct (add_all_gen false i ks (chains g2)) as (cs & Ea & Lc & A & B).
  { lia. } { unfold ks. apply NoDup_ListNoDup, List.NoDup_filter, NoDup_ListNoDup, Nl. }
  { intros k Hk. destruct (Hks k Hk) as (_ & j & Hj). destruct (ov_cell _ _ _ _ _ _ _ O j k Hj) as (grp & H). exists grp. exact H. }
  rewrite Ea. cbn [bind]. rewrite index_zobrist_ok by lia. cbn [bind]. rewrite vset_ok by lia. cbn [bind chains].
  assert (Hu : u < length cs) by (rewrite Lc; eapply live_lt; apply (ov_live _ _ _ _ _ _ _ O)).
  unfold chains_remove. rewrite vset_ok by exact Hu. cbn [bind]. eexists. split; [reflexivity|]. split; [cbn; rewrite Hs; symmetry; apply (wf_size n g W)|].
  split; [cbn [with_chains board]; rewrite insert_length; exact Hb|].
  match goal with |- (forall j k, cell ?x j = _ -> _) /\ _ => set (g3 := x) end.
  assert (Hi3 : cell g3 i = None).
  { unfold cell. cbn [g3 with_chains board]. rewrite list_lookup_insert by lia. reflexivity. }
  assert (Hj3 : forall j, j <> i -> cell g3 j = cell g2 j).
  { intros j Hj. unfold cell. cbn [g3 with_chains board]. rewrite list_lookup_insert_ne by congruence. reflexivity. }
  assert (H3 : forall j k, j <> i -> cell g2 j = Some k -> exists grp grp', live g2 k = Some grp /\ live g3 k = Some grp' /\ g_color grp' = g_color grp).
  { intros j k Hj Ek. assert (Hku : k <> u) by (intros ->; apply Hj, Hone, Ek).
    destruct (ov_cell _ _ _ _ _ _ _ O j k Ek) as (grp & Hg & _). exists grp. unfold live at 2. cbn [g3 with_chains chains]. rewrite list_lookup_insert_ne by congruence.
    destruct (decide (k ∈ ks)) as [Hk|Hk]; [|rewrite A by exact Hk; exists grp; split; [exact Hg|]; split; [exact Hg|reflexivity]].
    destruct (B k grp Hk Hg) as (grp' & B1 & (B2 & _) & _). exists grp'. split; [exact Hg|]. split; [exact B1|congruence]. }
  split.
  - intros j k Hj. destruct (decide (j = i)) as [->|Nj]; [congruence|]. rewrite Hj3 in Hj by exact Nj.
    destruct (H3 j k Nj Hj) as (grp & grp' & _ & H & _). rewrite H. eauto.
  - intros j. destruct (decide (j = i)) as [->|Hj]; [unfold col; rewrite Hi3; reflexivity|].
    pose proof (ov_col _ _ _ _ _ _ _ O j) as Hc. destruct (decide (j = i)); [contradiction|]. rewrite <- Hc.
    unfold col. rewrite Hj3 by exact Hj. destruct (cell g2 j) as [k|] eqn:Ek; [|reflexivity].
    destruct (H3 j k Hj Ek) as (grp & grp' & E1 & E2 & E3). rewrite E1, E2. congruence.
Qed.

(** * Debug builds *)
Lemma integrity_rings g : length (next_stone g) = 361 ->
  (forall k grp, live g k = Some grp -> exists l, ring (next_stone g) grp l /\ forall j, j ∈ l -> j < 361) -> check_integrity_all true g = Ok tt.
Proof.
  intros Hn Hr. unfold check_integrity_all.
  assert (H : forall ks, foldM (fun (_ : unit) k => match chains g !! k with
                    | Some (Some _) => check_integrity_ren true g k
                    | _ => Ok tt
                    end) ks tt = Ok tt).
  { induction ks as [|k ks IH]; [reflexivity|]. cbn [foldM]. destruct (chains g !! k) as [[grp|]|] eqn:E; [|exact IH|exact IH].
    assert (Hk : live g k = Some grp) by (apply live_lookup; exact E). destruct (Hr k grp Hk) as (l & R & Hl361).
    pose proof (NoDup_bounded _ _ (ring_nodup _ _ _ R) Hl361) as Hc.
    unfold check_integrity_ren. rewrite (chain_at_live _ _ _ Hk). cbn [bind].
    rewrite (ring_iter true _ grp l R) by (rewrite Hn; exact Hl361). cbn [bind].
    rewrite (ring_head _ _ _ R), (ring_last _ _ _ R). cbn [unwrap bind]. rewrite !Nat.eqb_refl. cbn [assert_ bind].
    rewrite (ring_num _ _ _ R) in *. rewrite N.mod_small by lia. rewrite N.eqb_refl. cbn [assert_ bind]. exact IH. }
  apply H.
Qed.

Lemma remove_liberty_panics grp i : bits_ok (g_liberties grp) -> i < 361 -> lbit (g_liberties grp) i = false -> remove_liberty true grp i = Panic.
Proof. intros B Hi H. unfold remove_liberty, debug_assert. rewrite lib_get_spec by (assumption || lia). rewrite H. reflexivity. Qed.

Lemma several_panic n g i c J old k1 k2 ks (libs : list nat) :
  wf n g -> i < n * n -> cell g i = Some J -> live g J = Some old -> J ∉ k1 :: k2 :: ks -> (N.of_nat (length (chains g)) < 65535)%N ->
  NoDup (k1 :: k2 :: ks) -> (forall k, k ∈ k1 :: k2 :: ks -> exists gk, live g k = Some gk /\ g_color gk = c) ->
  (forall j, j ∈ libs -> j ∈ nb n i /\ cell g j = None) -> place_stone true g i c (k1 :: k2 :: ks) libs = Panic.
Proof.
  set (same := k1 :: k2 :: ks). intros W Hin Hc HJ HJs Hlen Nd Hsame Hlibs.
  pose proof (wf_n n g W) as Hn. pose proof (sq_le n Hn) as Hsq. pose proof (wf_0 n g W) as W0.
  assert (HJlt : J < length (chains g)) by (eapply live_lt; exact HJ).
  set (D := rest_of J i g). set (gs := strip J g).
  assert (HD : forall j, j ∈ D <-> cell g j = Some J /\ j <> i) by (intros j; unfold D; rewrite elem_of_rest by exact W0; reflexivity).
  assert (Wgs : wf0 gs) by (apply strip_wf0; assumption).
  assert (Cgs : forall j, cell gs j = if decide (cell g j = Some J) then None else cell g j) by (intros j; apply strip_cell).
  assert (Vgs : forall k, live gs k = if decide (k = J) then None else live g k) by (intros k; apply strip_live; exact HJlt).
  assert (Egs : length (chains gs) = length (chains g)) by (cbn; apply insert_length).
  assert (Hfree : forall k grp, live gs k = Some grp -> lbit (g_liberties grp) i = false).
  { intros k grp Hg. rewrite Vgs in Hg. destruct (decide (k = J)); [discriminate Hg|]. apply not_true_iff_false. intros H.
    apply (wf_lib n g W k grp i Hg) in H as [H _]. congruence. }
  set (K := length (chains gs)).
  assert (HK : live gs K = None) by (unfold live, K; rewrite lookup_ge_None_2 by lia; reflexivity).
  destruct (create_spec true gs i c libs Wgs) as [[_ F]|(g2 & grp & HL & E & W' & S & Z & L & C & V & Col & B)].
  { lia. } { rewrite Cgs. destruct (decide _); [reflexivity|contradiction]. }
  { apply Forall_forall. intros j Hj. apply Hlibs in Hj as [Hj _]. apply nb_bound in Hj; lia. } { lia. }
  fold K in E, C, V.
  destruct (merge_all_gen true gs c i libs K same Wgs HK Nd) with (P := @nil nat) (t := K) (gt := g2) (grpt := grp)
    as (g3 & u & gu & R1 & R2 & R3 & R4 & R5 & R6 & R7 & R8 & R9 & R10).
  { intros k Hk. destruct (Hsame k Hk) as (gk & A1 & A2). exists gk. split; [|exact A2]. rewrite Vgs. destruct (decide (k = J)) as [->|]; [contradiction|exact A1]. }
  { exact W'. } { exact S. } { exact Z. } { tauto. }
  { intros H. destruct (Hsame K H) as (gk & Hx & _). apply live_lt in Hx. unfold K in Hx. lia. }
  { apply not_elem_of_nil. } { intros k _. apply not_elem_of_nil. }
  { intros j. rewrite C. cbn. destruct (decide (j = i)); destruct (decide (j = i \/ cell gs j ∈ [])) as [D0|D0]; try tauto.
    destruct D0 as [|D0]; [tauto|]. apply elem_of_nil in D0. destruct D0. }
  { intros k. rewrite V. destruct (decide (k = K)) as [|Nk]; [reflexivity|].
    destruct (decide (k = K \/ k ∈ [])) as [[D0|D0]|D0]; [contradiction|apply elem_of_nil in D0; destruct D0|reflexivity]. }
  { exact Col. }
  { intros j. rewrite B. split; [tauto|]. intros [H|(k & gk & H & _)]; [exact H|]. apply elem_of_nil in H. destruct H. }
  cbn [app] in R6, R7, R8, R10.
  assert (Hgu : live g3 u = Some gu) by (rewrite R8; destruct (decide (u = u)); congruence).
  assert (HuJ : u <> J) by (intros ->; destruct R6 as [R6|R6]; [unfold K in R6; lia|contradiction]).
  assert (HB : bare D (board g3)).
  { intros j Hj. apply HD in Hj as [Hj Hji]. apply cell_None; [rewrite (wf0_board g3 R2); apply (wf0_cell_lt g j J W0 Hj)|].
    rewrite R7, Cgs. destruct (decide (cell g j = Some J)); [|contradiction]. destruct (decide _) as [[->|H]|]; [contradiction| |reflexivity].
    apply none_mapsome in H. destruct H. }
  destruct (merge_all_patch J old D true same g2 K g3 u R1) as (P1 & P2 & _ & _).
  { unfold K. lia. } { exact HJs. } { exact HB. }
  destruct (create_patch J old D true gs i c libs g2 K E) as (Q1 & _).
  { lia. } { exact P2. }
  assert (EP : patch J old D gs = with_board g (<[i := None]> (board g))) by (apply patch_strip; assumption).
  rewrite EP, create_forget in Q1.
  unfold place_stone, same. rewrite Q1. cbn [bind]. fold same. rewrite P1. cbn [bind patch chains].
  rewrite chain_at_pc by exact HuJ. rewrite (chain_at_live _ _ _ Hgu). cbn [bind].
  rewrite remove_liberty_panics; [reflexivity|apply (wf0_chain g3 R2 u gu Hgu)|lia|].
  apply not_true_iff_false. intros H. apply R10 in H as [H|(k & gk & _ & H1 & H2)].
  - apply Hlibs in H as [H _]. revert H. apply nb_irrefl; lia.
  - rewrite (Hfree k gk H1) in H2. discriminate H2.
Qed.

Lemma over_debug n g r cc c : wf n g -> r < n -> cc < n -> cell g (r * n + cc) <> None -> (N.of_nat (length (chains g)) < 65535)%N ->
  ((forall j, j ∈ nb n (r * n + cc) -> cell g j = None) ->
     exists g2 u grpu, push_wth_feedback true g (r, cc) c = Ok (g2, [], u) /\ over n g (r * n + cc) c g2 u grpu) /\
  ((exists j, j ∈ nb n (r * n + cc) /\ cell g j <> None) -> push_wth_feedback true g (r, cc) c = Panic).
Proof.
  intros W Hr Hcc. set (i := r * n + cc). intros Hi Hlen. destruct (cell g i) as [J|] eqn:Hc; [|contradiction].
  pose proof (wf_n n g W) as Hn. pose proof (wf_0 n g W) as W0. pose proof (sq_le n Hn) as Hsq.
  assert (Hin : i < n * n) by (apply idx_bound; assumption).
  unfold push_wth_feedback. rewrite (wf_size n g W), two_idx. fold i. rewrite neighbors_idx_sq by assumption. cbn [bind].
  destruct (classify_spec g c (nb n i) W0) as (same & oppo & libs & Ec & Nd1 & Nd2 & L1 & L2 & Hsame & Hoppo & Hlibs).
  { intros j Hj. apply nb_bound in Hj; lia. } { apply nb_length. }
  rewrite Ec. cbn [bind].
  assert (Hbits : forall k grp, live g k = Some grp -> lbit (g_liberties grp) i = false).
  { intros k grp Hg. apply not_true_iff_false. intros H. apply (wf_lib n g W k grp i Hg) in H as [H _]. congruence. }
  destruct (wf0_cell g W0 i J Hc) as [old Hold]. assert (Eg : with_chains g (chains g) = g) by (destruct g; reflexivity). split.
  - intros Hempty.
    assert (same = []) as ->.
    { destruct same as [|k ks]; [reflexivity|]. destruct (proj1 (Hsame k) ltac:(left)) as (j & grp & A1 & A2 & _). rewrite (Hempty j A1) in A2. discriminate A2. }
    assert (oppo = []) as ->.
    { destruct oppo as [|k ks]; [reflexivity|]. destruct (proj1 (Hoppo k) ltac:(left)) as (j & grp & A1 & A2 & _). rewrite (Hempty j A1) in A2. discriminate A2. }
    cbn [remove_liberties foldM bind]. rewrite Eg.
    destruct (over_other true n g g i c J old [] libs) as (g2 & u & grpu & E & O & Rs & HJ2 & Ln & Hnx); try assumption; try reflexivity.
    { apply not_elem_of_nil. } { intros k grp Hk. exists grp. split; [exact Hk|]. split; [reflexivity|]. apply (Hbits k grp Hk). } { intros k grp Hk. inversion Hk. } { auto. }
    rewrite E. cbn [bind]. rewrite index_zobrist_ok by lia. cbn [bind]. set (g3 := with_hash g2 _).
    specialize (Hnx eq_refl).
    assert (Hring : exists l, ring (next_stone g2) old l /\ forall j, j ∈ l -> j < 361).
    { destruct (wf0_chain g W0 J old Hold) as [_ (l & R & M)].
      assert (Hl : forall j, j ∈ l <-> j = i).
      { intros j. rewrite M. split; [|intros ->; exact Hc]. intros Hj. pose proof (wf_conn n g W i j J Hc Hj) as P.
        inversion P as [|? y ? [S1 [S2 S3]] P']; [reflexivity|subst]. rewrite (Hempty y S1) in S3. discriminate S3. }
      assert (El : l = [i]).
      { destruct l as [|a [|b l]].
        - exfalso. enough (i ∈ []) as Hx by inversion Hx. apply Hl. reflexivity.
        - f_equal. apply Hl. left.
        - exfalso. destruct R as [_ _ _ Nd' _]. apply NoDup_cons in Nd' as [Nd' _]. apply Nd'. rewrite (proj1 (Hl a)), (proj1 (Hl b)); [left|right; left|left]. }
      subst l. exists [i]. split; [|intros j Hj; apply Hl in Hj; lia]. destruct R as [R1 R2 R3 R4 R5]. constructor; try assumption.
      cbn in R2 |- *. split; [congruence|exact I]. }
    rewrite (integrity_rings g3).
    + cbn [bind]. exists g3, u, grpu. split; [reflexivity|]. destruct O. constructor; assumption.
    + exact Ln.
    + intros k grp Hk. destruct (decide (k = J)) as [->|NJ]; [|apply (Rs k grp Hk NJ)]. assert (grp = old) by (change (live g3 J) with (live g2 J) in Hk; congruence).
      subst grp. exact Hring.
  - intros (j0 & Hj0 & Hcj0). destruct oppo as [|k ks].
    + cbn [remove_liberties foldM bind]. rewrite Eg.
      assert (Hne : exists k, k ∈ same).
      { destruct (cell g j0) as [k|] eqn:Ek; [|contradiction]. exists k. destruct (wf0_cell g W0 j0 k Ek) as [grp Hg]. apply Hsame. exists j0, grp.
        split; [exact Hj0|]. split; [exact Ek|]. split; [exact Hg|]. destruct (decide (g_color grp = c)) as [|N0]; [assumption|]. exfalso.
        enough (H : k ∈ []) by inversion H. apply Hoppo. exists j0, grp. apply ne_opp in N0. auto. }
      destruct same as [|k1 [|k2 ks]]; [destruct Hne as (k & Hk); inversion Hk| |].
      * cbn [place_stone]. destruct (proj1 (Hsame k1) ltac:(left)) as (j & grp & A1 & A2 & A3 & A4). rewrite (chain_at_live _ _ _ A3). cbn [bind].
        rewrite remove_liberty_panics; [reflexivity|apply (wf0_chain g W0 k1 grp A3)|lia|apply (Hbits k1 grp A3)].
      * rewrite (several_panic n g i c J old k1 k2 ks libs); try assumption; [reflexivity|..].
        { intros HJ. assert (H : forall k, k ∈ k1 :: k2 :: ks -> k = J).
          { destruct (proj1 (Hsame J) HJ) as (jJ & grpJ & B1 & B2 & B3 & B4).
            intros k Hk. apply Hsame in Hk as (j & grp & A1 & A2 & A3 & A4). symmetry. apply (wf_max n g W i j J k A1 Hc A2).
            rewrite (col_eq g i J grpJ Hc B3), (col_eq g j k grp A2 A3). congruence. }
          apply NoDup_cons in Nd1 as [Nd1 _]. apply Nd1. rewrite (H k1), (H k2); [left|right; left|left]. }
        { intros k Hk. apply Hsame in Hk as (j & grp & A1 & A2 & A3 & A4). eauto. }
        { intros j Hj. apply Hlibs, Hj. }
    + unfold remove_liberties. cbn [foldM]. destruct (proj1 (Hoppo k) ltac:(left)) as (j & grp & A1 & A2 & A3 & A4). rewrite (chain_at_live _ _ _ A3). cbn [bind].
      rewrite remove_liberty_panics; [reflexivity|apply (wf0_chain g W0 k grp A3)|lia|apply (Hbits k grp A3)].
Qed.

(** * Boards and games *)
Lemma alive_breathe n g : wf n g -> all_breathe n (pos_of g) -> alive g.
Proof.
  intros W A k grp Hg. pose proof (live_stone n g k grp W Hg) as Ho. pose proof (wf_on n g W _ _ Ho) as Hl.
  pose proof (pt_on n _ Hl) as Hon. rewrite <- (idx_pt n _ Hl) in Ho.
  apply (breathes_lbit n g (pt n (g_origin grp)) k grp W Hon Ho Hg). apply A; [exact Hon|].
  rewrite (pos_of_col n g _ W Hon), (col_eq g _ k grp Ho Hg). discriminate.
Qed.

Lemma get_color_col n g q : 1 <= n <= 19 -> gsize g = (n, n) -> length (board g) = 361 -> (forall j k, cell g j = Some k -> is_Some (live g k)) ->
  on n q -> get_color g q = Ok (col g (idx n q)).
Proof.
  intros Hn Hs Hb Hl Hq. unfold get_color, get_color_idx. rewrite Hs, two_idx'. pose proof (idx_on n q Hq). pose proof (sq_le n Hn).
  rewrite vget_board by lia. cbn [bind]. unfold col. destruct (cell g (idx n q)) as [k|] eqn:E; [|reflexivity].
  destruct (Hl _ _ E) as [grp Hg]. rewrite (chain_at_live _ _ _ Hg). cbn [bind]. rewrite Hg. reflexivity.
Qed.

Lemma over_color n g p c g2 u grpu q : wf n g -> on n p -> over n g (idx n p) c g2 u grpu -> on n q -> get_color g2 q = Ok (put (pos_of g) p c q).
Proof.
  intros W Hp O Hq. rewrite (get_color_col n g2 q).
  - rewrite (ov_col _ _ _ _ _ _ _ O). unfold put. destruct (decide (q = p)) as [->|Hne].
    + destruct (decide _); [reflexivity|contradiction].
    + destruct (decide _) as [E|_]; [apply (idx_inj n q p Hq Hp) in E; contradiction|]. rewrite (pos_of_col n g q W Hq). reflexivity.
  - apply (wf_n n g W).
  - rewrite (ov_size _ _ _ _ _ _ _ O). apply (wf_size n g W).
  - apply (ov_board _ _ _ _ _ _ _ O).
  - intros j k H. destruct (ov_cell _ _ _ _ _ _ _ O j k H) as (grp & Hg & _). eauto.
  - exact Hq.
Qed.

Lemma cell_pos n g p : wf n g -> on n p -> cell g (idx n p) = None <-> pos_of g p = None.
Proof. intros W Hp. rewrite (pos_of_col n g p W Hp). symmetry. apply (col_None n g _ W). Qed.

Lemma nb_cells n g p : wf n g -> on n p ->
  ((forall j, j ∈ nb n (idx n p) -> cell g j = None) <-> forall q, on n q -> adj p q -> pos_of g q = None).
Proof.
  intros W Hp. split.
  - intros H q Hq Ha. apply (cell_pos n g q W Hq), H. apply (adj_nb n p q Hp Hq), Ha.
  - intros H j Hj. assert (Hl : j < n * n) by (apply nb_bound in Hj; [exact Hj|pose proof (wf_n n g W); lia|apply idx_on, Hp]).
    pose proof (pt_on n j Hl) as Hq. rewrite <- (idx_pt n j Hl) in Hj |- *. apply (cell_pos n g _ W Hq), H; [exact Hq|]. apply (adj_nb n p _ Hp Hq), Hj.
Qed.

Lemma nb_opponents n g p c : wf n g -> on n p ->
  ((forall j, j ∈ nb n (idx n p) -> col g j = Some c) <-> forall q, on n q -> adj p q -> pos_of g q = Some c).
Proof.
  intros W Hp. split.
  - intros H q Hq Ha. rewrite (pos_of_col n g q W Hq). apply H. apply (adj_nb n p q Hp Hq), Ha.
  - intros H j Hj. assert (Hl : j < n * n) by (apply nb_bound in Hj; [exact Hj|pose proof (wf_n n g W); lia|apply idx_on, Hp]).
    pose proof (pt_on n j Hl) as Hq. rewrite <- (idx_pt n j Hl) in Hj |- *. rewrite <- (pos_of_col n g _ W Hq). apply H; [exact Hq|]. apply (adj_nb n p _ Hp Hq), Hj.
Qed.

Lemma push_feedback dbg n g p c : gsize g = (n, n) -> on n p -> push dbg g p c = let! '(g', _, _) := push_wth_feedback dbg g p c in Ok g'.
Proof.
  intros Hs [H1 H2]. unfold push. rewrite Hs. cbn [fst snd]. apply Nat.ltb_lt in H1, H2. rewrite H1, H2. destruct dbg; reflexivity.
Qed.

(** release: on a board where every chain breathes, [push] paints the point *)
Theorem push_over_release n m g p c : breach false n m g -> all_breathe n (pos_of g) -> on n p -> pos_of g p <> None ->
  (N.of_nat (length (chains g)) < 65535)%N ->
  exists g', push false g p c = Ok g' /\ forall q, on n q -> get_color g' q = Ok (put (pos_of g) p c q).
Proof.
  intros H A Hp Ho Hl. pose proof (breach_wf false n m g H) as W. destruct p as [r cc]. pose proof Hp as [Hr Hc]. cbn in Hr, Hc.
  destruct (over_push n g r cc c W (alive_breathe n g W A) Hr Hc) as (g2 & u & grpu & E & O).
  { intros X. apply Ho. apply (cell_pos n g (r, cc) W Hp), X. } { exact Hl. }
  exists g2. rewrite (push_feedback false n) by (apply W || exact Hp). rewrite E. split; [reflexivity|].
  intros q Hq. apply (over_color n g (r, cc) c g2 u grpu q W Hp O Hq).
Qed.

(** debug: [push] returns exactly for a stone without neighbours *)
Theorem push_over_debug n m g p c : breach true n m g -> on n p -> pos_of g p <> None -> (N.of_nat (length (chains g)) < 65535)%N ->
  ((forall q, on n q -> adj p q -> pos_of g q = None) ->
     exists g', push true g p c = Ok g' /\ forall q, on n q -> get_color g' q = Ok (put (pos_of g) p c q)) /\
  ((exists q, on n q /\ adj p q /\ pos_of g q <> None) -> push true g p c = Panic).
Proof.
  intros H Hp Ho Hl. pose proof (breach_wf true n m g H) as W. destruct p as [r cc]. pose proof Hp as [Hr Hc]. cbn in Hr, Hc.
  destruct (over_debug n g r cc c W Hr Hc) as [X Y].
  { intros X. apply Ho. apply (cell_pos n g (r, cc) W Hp), X. } { exact Hl. }
  rewrite (push_feedback true n) by (apply W || exact Hp). split.
  - intros He. destruct (X (proj2 (nb_cells n g (r, cc) W Hp) He)) as (g2 & u & grpu & E & O). exists g2. rewrite E. split; [reflexivity|].
    intros q Hq. apply (over_color n g (r, cc) c g2 u grpu q W Hp O Hq).
  - intros (q & Hq & Ha & Hoq). rewrite Y; [reflexivity|]. exists (idx n q). split; [apply (adj_nb n (r, cc) q Hp Hq), Ha|].
    intros Z. apply Hoq. apply (cell_pos n g q W Hq), Z.
Qed.

Lemma over_play_kept n b w g x y g2 u grpu dbg : ginv n b w g -> on n (x, y) -> push_wth_feedback dbg (gm_goban g) (x, y) (gm_turn g) = Ok (g2, [], u) ->
  over n (gm_goban g) (idx n (x, y)) (gm_turn g) g2 u grpu -> ~ swallowed n g (x, y) -> (N.of_nat (length (chains (gm_goban g))) < 65535)%N ->
  exists g', play dbg g (MPlay x y) = Ok g' /\ (forall q, on n q -> get_color (gm_goban g') q = Ok (put (position g) (x, y) (gm_turn g) q)) /\
    gm_turn g' = opp (gm_turn g) /\ gm_prisoners g' = gm_prisoners g /\ gm_ko_point g' = None /\ gm_passes g' = 0.
Proof.
  intros I Hp E O Hns Hlen. pose proof (gi_wf _ _ _ _ I) as W. unfold play.
  destruct (history_insert_spec n (gm_history g) (gm_goban g) (gi_hist _ _ _ _ I) W) as (h & Eh & _ & _). rewrite Eh. cbn [bind].
  rewrite E. cbn [bind]. unfold game_remove_captured_stones, remove_captured_stones_aux. cbn [foldM bind length Nat.eqb].
  rewrite (chain_at_live _ _ _ (ov_live _ _ _ _ _ _ _ O)). cbn [bind].
  destruct (negb _ && is_dead grpu) eqn:Ed.
  - exfalso. apply andb_true_iff in Ed as [E1 E2]. apply negb_true_iff in E1. apply Hns. split; [exact E1|].
    apply (nb_opponents n (gm_goban g) (x, y) _ W Hp). apply (ov_dead _ _ _ _ _ _ _ O), E2.
  - cbn [bind fst snd]. destruct (gm_prisoners g) as [pb pw] eqn:Epr. cbn [fst snd].
    pose proof (gi_pris _ _ _ _ I) as Hpr. rewrite Epr in Hpr. unfold rem_total in Hpr. cbn [fst snd] in Hpr.
    pose proof (dslots_le (gm_goban g)).
    rewrite !u32_add_ok by lia. cbn [bind]. eexists. split; [reflexivity|]. cbn [gm_goban gm_turn gm_prisoners gm_ko_point gm_passes].
    split; [|rewrite !N.add_0_r; auto]. intros q Hq. apply (over_color n (gm_goban g) (x, y) _ g2 u grpu q W Hp O Hq).
Qed.

Theorem play_over_release n g x y : lreach false n g -> on n (x, y) -> position g (x, y) <> None -> (N.of_nat (length (chains (gm_goban g))) < 65535)%N ->
  exists g', play false g (MPlay x y) = Ok g' /\ gm_turn g' = opp (gm_turn g) /\ gm_ko_point g' = None /\ gm_passes g' = 0 /\
    (forall q, on n q -> q <> (x, y) -> get_color (gm_goban g') q = Ok (position g q)) /\
    (~ swallowed n g (x, y) -> get_color (gm_goban g') (x, y) = Ok (Some (gm_turn g)) /\ gm_prisoners g' = gm_prisoners g) /\
    (swallowed n g (x, y) -> get_color (gm_goban g') (x, y) = Ok None /\
       gm_prisoners g' = match gm_turn g with White => (fst (gm_prisoners g) + 1, snd (gm_prisoners g)) | Black => (fst (gm_prisoners g), snd (gm_prisoners g) + 1) end%N).
Proof.
  intros H Hp Ho Hlen. pose proof (claim_breathe false n g H) as A. destruct (lreach_greach false n g H) as (b & w & G).
  pose proof (greach_inv false n b w g G) as I. pose proof (gi_wf _ _ _ _ I) as W. pose proof Hp as [Hx Hy]. cbn in Hx, Hy.
  destruct (over_push n (gm_goban g) x y (gm_turn g) W (alive_breathe n _ W A) Hx Hy) as (g2 & u & grpu & E & O).
  { intros X. apply Ho. apply (cell_pos n (gm_goban g) (x, y) W Hp), X. } { exact Hlen. }
  change (x * n + y) with (idx n (x, y)) in O.
  destruct (negb (flag_contains (flag_illegal (gm_rule g)) SUICIDE) && is_dead grpu) eqn:Ed.
  - apply andb_true_iff in Ed as [E1 E2].
    assert (S : swallowed n g (x, y)).
    { split; [apply negb_true_iff, E1|]. apply (nb_opponents n (gm_goban g) (x, y) _ W Hp). apply (ov_dead _ _ _ _ _ _ _ O), E2. }
    destruct (over_remove n (gm_goban g) _ _ g2 u grpu W (idx_on n _ Hp) O E2) as (g3 & Er & Es & Eb & El & Ec).
    unfold play. destruct (history_insert_spec n (gm_history g) (gm_goban g) (gi_hist _ _ _ _ I) W) as (h & Eh & _ & _). rewrite Eh. cbn [bind].
    rewrite E. cbn [bind]. unfold game_remove_captured_stones, remove_captured_stones_aux. cbn [foldM bind length Nat.eqb].
    rewrite (chain_at_live _ _ _ (ov_live _ _ _ _ _ _ _ O)). cbn [bind]. rewrite E1, E2. cbn [andb]. rewrite Er. cbn [bind].
    destruct (ov_alone _ _ _ _ _ _ _ O E2) as (_ & Hnum & _). rewrite Hnum, (ov_color _ _ _ _ _ _ _ O).
    pose proof (gi_pris _ _ _ _ I) as Hpr. destruct (gm_prisoners g) as [pb pw] eqn:Epr. unfold rem_total in Hpr. cbn [fst snd] in *.
    pose proof (dslots_le (gm_goban g)).
    assert (Hc3 : forall q, on n q -> get_color g3 q = Ok (if decide (q = (x, y)) then None else position g q)).
    { intros q Hq. rewrite (get_color_col n g3 q); [|apply (wf_n _ _ W)|rewrite Es; apply (wf_size _ _ W)|exact Eb|exact El|exact Hq].
      rewrite Ec. destruct (decide (q = (x, y))) as [->|Hne]; [destruct (decide _); [reflexivity|contradiction]|].
      destruct (decide _) as [Ei|_]; [apply (idx_inj n q _ Hq Hp) in Ei; contradiction|]. unfold position. rewrite (pos_of_col n _ q W Hq). reflexivity. }
    assert (F : forall h : Prop, (forall q, on n q -> q <> (x, y) -> get_color g3 q = Ok (position g q)) /\ (~ swallowed n g (x, y) -> h) /\
      (swallowed n g (x, y) -> get_color g3 (x, y) = Ok None)).
    { intros h0. split; [|split; [tauto|]].
      - intros q Hq Hne. rewrite (Hc3 q Hq). destruct (decide (q = (x, y))); [contradiction|reflexivity].
      - intros _. rewrite (Hc3 _ Hp). destruct (decide _); [reflexivity|contradiction]. }
    destruct (gm_turn g) eqn:Et; rewrite !u32_add_ok by (cbn; lia); cbn [bind]; eexists; (split; [reflexivity|]);
      cbn [gm_goban gm_turn gm_prisoners gm_ko_point gm_passes]; (split; [reflexivity|]); (split; [reflexivity|]); (split; [reflexivity|]);
      (split; [apply (F True)|]); (split; [tauto|]); intros HS; (split; [apply (F True), HS|]); cbn; f_equal; lia.
  - assert (NS : ~ swallowed n g (x, y)).
    { intros [S1 S2]. rewrite S1 in Ed. cbn in Ed. pose proof (proj2 (ov_dead _ _ _ _ _ _ _ O) (proj2 (nb_opponents n (gm_goban g) (x, y) _ W Hp) S2)). congruence. }
    destruct (over_play_kept n b w g x y g2 u grpu false I Hp E O NS Hlen) as (g' & Ep & Hc & Ht & Hpr & Hk & Hps).
    exists g'. split; [exact Ep|]. split; [exact Ht|]. split; [exact Hk|]. split; [exact Hps|]. split; [|split; [|tauto]].
    + intros q Hq Hne. rewrite (Hc q Hq). unfold put. destruct (decide _); [contradiction|reflexivity].
    + intros _. split; [|exact Hpr]. rewrite (Hc _ Hp). unfold put. destruct (decide _); [reflexivity|contradiction].
Qed.

Theorem play_over_debug n g x y : lreach true n g -> on n (x, y) -> position g (x, y) <> None -> (N.of_nat (length (chains (gm_goban g))) < 65535)%N ->
  ((forall q, on n q -> adj (x, y) q -> position g q = None) ->
     exists g', play true g (MPlay x y) = Ok g' /\ forall q, on n q -> get_color (gm_goban g') q = Ok (put (position g) (x, y) (gm_turn g) q)) /\
  ((exists q, on n q /\ adj (x, y) q /\ position g q <> None) -> play true g (MPlay x y) = Panic).
Proof.
  intros H Hp Ho Hlen. pose proof (claim_breathe true n g H) as A. destruct (lreach_greach true n g H) as (b & w & G).
  pose proof (greach_inv true n b w g G) as I. pose proof (gi_wf _ _ _ _ I) as W. pose proof Hp as [Hx Hy]. cbn in Hx, Hy.
  destruct (over_debug n (gm_goban g) x y (gm_turn g) W Hx Hy) as [X Y].
  { intros X. apply Ho. apply (cell_pos n (gm_goban g) (x, y) W Hp), X. } { exact Hlen. }
  change (x * n + y) with (idx n (x, y)) in *. split.
  - intros He. destruct (X (proj2 (nb_cells n (gm_goban g) (x, y) W Hp) He)) as (g2 & u & grpu & E & O).
    assert (NS : ~ swallowed n g (x, y)).
    { intros [_ S2]. destruct (A (x, y) Hp Ho) as (l & L1 & L2 & q & C & Ha).
      assert (q = (x, y)) as ->.
      { inversion C as [|? y0 ? (S3 & S4 & S5 & S6) P']; [reflexivity|subst]. exfalso. apply Ho. rewrite S6. apply He; assumption. }
      rewrite (S2 l L1 Ha) in L2. discriminate L2. }
    destruct (over_play_kept n b w g x y g2 u grpu true I Hp E O NS Hlen) as (g' & Ep & Hc & _). eauto.
  - intros (q & Hq & Ha & Hoq). unfold play. destruct (history_insert_spec n (gm_history g) (gm_goban g) (gi_hist _ _ _ _ I) W) as (h & Eh & _ & _). rewrite Eh. cbn [bind].
    rewrite Y; [reflexivity|]. exists (idx n q). split; [apply (adj_nb n (x, y) q Hp Hq), Ha|].
    intros Z. apply Hoq. apply (cell_pos n (gm_goban g) q W Hq), Z.
Qed.

(** * Cases: a black stone at (1,1) of the 3x3 board with no neighbour; three black
    stones in the corner with White to move, suicide allowed *)
Definition free_rule : rule := mkRule (f32_make 13 (-1)) KO (N.lor KOMI PRISONNERS).

Lemma case_over_lone dbg : exists g, lreach dbg 3 g /\ on 3 (1, 1) /\ position g (1, 1) = Some Black /\ gm_turn g = White /\
  (N.of_nat (length (chains (gm_goban g))) < 65535)%N /\ forall q, on 3 q -> adj (1, 1) q -> position g q = None.
Proof.
  destruct (legal_sampleb dbg 3 JAPANESE [MPlay 1 1] (fun g =>
    bool_decide (position g (1, 1) = Some Black) && bool_decide (gm_turn g = White) && (N.of_nat (length (chains (gm_goban g))) <? 65535)%N &&
    forallb (fun q => bool_decide (position g q = None)) [(0, 1); (1, 0); (1, 2); (2, 1)]) ltac:(lia)) as (g & L & F).
  { destruct dbg; vm_compute; reflexivity. }
  rewrite !andb_true_iff, !bool_decide_eq_true, N.ltb_lt, forallb_forall in F. destruct F as (((F1 & F2) & F3) & F4).
  exists g. split; [exact L|]. split; [split; cbn; lia|]. split; [exact F1|]. split; [exact F2|]. split; [exact F3|].
  intros [a b] [Ha Hb] Hadj. specialize (F4 (a, b)). rewrite bool_decide_eq_true in F4. apply F4. cbn in Ha, Hb. unfold adj in Hadj. cbn in Hadj.
  assert (E : (a, b) = (0, 1) \/ (a, b) = (1, 0) \/ (a, b) = (1, 2) \/ (a, b) = (2, 1)).
  { destruct Hadj as [[A [B|B]]|[A [B|B]]]; subst a || subst b; [right; left|right; right; left|left|right; right; right]; f_equal; lia. }
  destruct E as [->|[->|[->| ->]]]; cbn; auto.
Qed.

Lemma case_over_corner dbg : exists g, lreach dbg 3 g /\ on 3 (0, 0) /\ position g (0, 0) = Some Black /\ gm_turn g = White /\
  (N.of_nat (length (chains (gm_goban g))) < 65535)%N /\ swallowed 3 g (0, 0) /\ (exists q, on 3 q /\ adj (0, 0) q /\ position g q <> None).
Proof.
  destruct (legal_sampleb dbg 3 free_rule [MPlay 0 0; MPass; MPlay 0 1; MPass; MPlay 1 0] (fun g =>
    bool_decide (position g (0, 0) = Some Black) && bool_decide (gm_turn g = White) && (N.of_nat (length (chains (gm_goban g))) <? 65535)%N &&
    negb (flag_contains (flag_illegal (gm_rule g)) SUICIDE) &&
    forallb (fun q => bool_decide (position g q = Some Black)) [(0, 1); (1, 0)]) ltac:(lia)) as (g & L & F).
  { destruct dbg; vm_compute; reflexivity. }
  rewrite !andb_true_iff, !bool_decide_eq_true, N.ltb_lt, negb_true_iff, forallb_forall in F. destruct F as ((((F1 & F2) & F3) & F4) & F5).
  assert (G : forall q, on 3 q -> adj (0, 0) q -> position g q = Some Black).
  { intros [a b] [Ha Hb] Hadj. specialize (F5 (a, b)). rewrite bool_decide_eq_true in F5. apply F5. cbn in Ha, Hb. unfold adj in Hadj. cbn in Hadj.
    assert (E : (a, b) = (0, 1) \/ (a, b) = (1, 0)).
    { destruct Hadj as [[A [B|B]]|[A [B|B]]]; subst a || subst b; [discriminate B|left; f_equal; lia|discriminate B|right; f_equal; lia]. }
    destruct E as [->| ->]; cbn; auto. }
  exists g. split; [exact L|]. split; [split; cbn; lia|]. split; [exact F1|]. split; [exact F2|]. split; [exact F3|]. split.
  - split; [exact F4|]. rewrite F2. exact G.
  - exists (0, 1). split; [split; cbn; lia|]. split; [left; cbn; lia|]. rewrite (G (0, 1)); [discriminate|split; cbn; lia|left; cbn; lia].
Qed.

Lemma case_over_push dbg : exists m g, breach dbg 3 m g /\ on 3 (1, 1) /\ pos_of g (1, 1) = Some Black /\ all_breathe 3 (pos_of g) /\
  (N.of_nat (length (chains g)) < 65535)%N /\ forall q, on 3 q -> adj (1, 1) q -> pos_of g q = None.
Proof.
  destruct (case_over_lone dbg) as (g & L & Ho & Hp & _ & Hl & Ha). destruct (lreach_greach dbg 3 g L) as (b & w & G).
  exists (b + w), (gm_goban g). split; [apply (br_game dbg 3 b w g G)|]. split; [exact Ho|]. split; [exact Hp|]. split; [apply (claim_breathe dbg 3 g L)|]. split; [exact Hl|exact Ha].
Qed.
