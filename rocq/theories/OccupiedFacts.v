(** [push] on a point that carries a stone: one stone more is counted, none more
    is shown. *)
From stdpp Require Import relations sorting.
From Verif Require Import MonadFacts Struct Push Inv Bridge GameFacts PropFacts ClaimFacts RefuteFacts.
From Verif Require Export Observe Reach.
From Coq Require Import Lia.

Local Notation length := Datatypes.length.
Open Scope nat_scope.

(** all stones counted by the chains *)
Definition tot (cs : groups) : nat := sum_list_with (fun o => match o with Some grp => g_num_stones grp | None => 0 end) cs.

Lemma tot_app a b : tot (a ++ b) = tot a + tot b.
Proof. unfold tot. apply sum_list_with_app. Qed.

Lemma tot_set cs k o x : cs !! k = Some o ->
  tot (<[k:=x]> cs) + match o with Some grp => g_num_stones grp | None => 0 end =
  tot cs + match x with Some grp => g_num_stones grp | None => 0 end.
Proof.
  intros H. pose proof (lookup_lt_Some _ _ _ H) as L. rewrite insert_take_drop by exact L.
  rewrite <- (take_drop_middle _ _ _ H) at 3. rewrite !tot_app. unfold tot. cbn [sum_list_with]. lia.
Qed.

Lemma fold_stones l : forall b w, let '(x, y) := fold_left (fun '(b, w) grp =>
               match g_color grp with
               | White => (b, w + g_num_stones grp)%nat
               | Black => (b + g_num_stones grp, w)%nat
               end) l (b, w) in x + y = b + w + sum_list_with g_num_stones l.
Proof.
  induction l as [|grp l IH]; intros b w; cbn [fold_left sum_list_with]; [lia|].
  destruct (g_color grp); [specialize (IH b (w + g_num_stones grp))|specialize (IH (b + g_num_stones grp) w)];
  destruct (fold_left _ _ _); lia.
Qed.

Lemma stones_tot g : fst (number_of_stones g) + snd (number_of_stones g) = tot (chains g).
Proof.
  unfold number_of_stones. pose proof (fold_stones (all_chains g) 0 0) as H. destruct (fold_left _ _ _). cbn [fst snd]. rewrite H.
  unfold all_chains, chains_iter, tot. clear H. induction (chains g) as [|[grp|] cs IH]; cbn [omap list_omap sum_list_with id]; lia.
Qed.

Lemma chain_at_ok cs k grp : chain_at cs k = Ok grp -> cs !! k = Some (Some grp).
Proof. unfold chain_at, vget. intros H. apply bind_ok in H as (o & H & E). destruct (cs !! k) as [[]|]; cbn in *; try discriminate; injection H as <-; cbn in E; congruence. Qed.

Lemma vset_ok {A} (v : list A) i x v' : vset v i x = Ok v' -> v' = <[i:=x]> v /\ i < length v.
Proof. unfold vset. destruct (Nat.ltb_spec i (length v)); [|discriminate]. intros [= <-]. auto. Qed.

Lemma vget_ok {A} (v : list A) i x : vget v i = Ok x -> v !! i = Some x.
Proof. unfold vget. destruct (v !! i); cbn; congruence. Qed.

Lemma chain_put_ok cs k grp cs' : chain_put cs k grp = Ok cs' ->
  exists old, cs !! k = Some (Some old) /\ cs' = <[k:=Some grp]> cs /\ tot cs' + g_num_stones old = tot cs + g_num_stones grp.
Proof.
  unfold chain_put. intros H. apply bind_ok in H as (old & H1 & H2). apply chain_at_ok in H1. apply vset_ok in H2 as [-> _].
  exists old. split; [exact H1|]. split; [reflexivity|]. apply (tot_set _ _ _ (Some grp) H1).
Qed.

Section Within.
Variable sz : size_t.

(** the size is [sz]; the board, the lists of stones and the chains stay within [A] *)
Record within (A : nat -> Prop) (g : goban) : Prop := mkWithin {
  w_cell : gsize g = sz /\ forall i k, board g !! i = Some (Some k) -> A i;
  w_next : forall i j, A i -> next_stone g !! i = Some j -> A j;
  w_chain : forall k grp, chains g !! k = Some (Some grp) -> A (g_origin grp) /\ A (g_last grp)
}.

Lemma iter_within (A : nat -> Prop) dbg nx : (forall i j, A i -> nx !! i = Some j -> A j) ->
  forall fuel cur o l, A cur -> iter_from fuel dbg nx o cur = Ok l -> Forall A l.
Proof.
  intros HN. induction fuel as [|fuel IH]; intros cur o l Hc H; cbn [iter_from] in H; [discriminate|].
  apply bind_ok in H as (j & Hj & H). apply vget_ok in Hj. specialize (HN _ _ Hc Hj).
  destruct (j =? o); [injection H as <-; repeat constructor; exact Hc|].
  destruct (dbg && (j =? cur)); [discriminate|]. apply bind_ok in H as (t & Ht & [= <-]). constructor; [exact Hc|]. exact (IH _ _ _ HN Ht).
Qed.

Lemma next_set (A : nat -> Prop) (nx nx' : list nat) i x : vset nx i x = Ok nx' -> A x ->
  (forall i j, A i -> nx !! i = Some j -> A j) -> forall i j, A i -> nx' !! i = Some j -> A j.
Proof.
  intros H Hx HN a b Ha Hb. apply vset_ok in H as [-> _]. apply list_lookup_insert_Some in Hb as [(-> & <- & _)|[_ Hb]]; eauto.
Qed.

Lemma within_put A g k grp cs : within A g -> chain_put (chains g) k grp = Ok cs -> A (g_origin grp) -> A (g_last grp) -> within A (with_chains g cs).
Proof.
  intros [H1 H2 H3] H Ho Hl. apply chain_put_ok in H as (old & _ & -> & _). constructor; [exact H1|exact H2|].
  intros k' grp' H. cbn in H. apply list_lookup_insert_Some in H as [(-> & [= <-] & _)|[_ H]]; eauto.
Qed.

Lemma within_set_board A g i x b : within A g -> vset (board g) i x = Ok b -> A i -> within A (with_board g b).
Proof.
  intros [H1 H2 H3] H Hi. apply vset_ok in H as [-> _]. constructor; [|exact H2|exact H3].
  destruct H1 as [Hs H1]. split; [exact Hs|]. intros j k Hj. cbn in Hj. apply list_lookup_insert_Some in Hj as [(-> & _ & _)|[_ Hj]]; eauto.
Qed.

Lemma update_within A dbg g k g' : within A g -> update_chain_indexes_in_board dbg g k = Ok g' -> within A g' /\ chains g' = chains g.
Proof.
  intros W H. unfold update_chain_indexes_in_board in H. apply bind_ok in H as (_ & _ & H).
  apply bind_ok in H as (grp & Hg & H). apply chain_at_ok in Hg. apply bind_ok in H as (b & Hb & [= <-]). apply for_from_inv in Hb as (l & Hl & Hb).
  split; [|reflexivity]. destruct (w_chain _ _ W _ _ Hg) as [Ho _]. pose proof (iter_within A dbg _ (w_next _ _ W) _ _ _ _ Ho Hl) as F.
  assert (G : forall l b0 b, Forall A l -> within A (with_board g b0) -> foldM (fun b p => let! k' := nonmax_u16 k in vset b p (Some k')) l b0 = Ok b -> within A (with_board g b)).
  { clear. induction l as [|p l IH]; intros b0 b F W H; cbn [foldM] in H; [injection H as <-; exact W|].
    apply Forall_cons in F as [Fp F]. apply bind_ok in H as (b1 & H1 & H). apply bind_ok in H1 as (k' & _ & H1).
    apply (IH b1 b F); [|exact H]. apply (within_set_board A (with_board g b0) p (Some k') b1 W H1 Fp). }
  apply (G l (board g) b F); [|exact Hb]. destruct W as [H1 H2 H3]. constructor; assumption.
Qed.

Lemma create_within A dbg g p c libs g' k : within A g -> A p -> create_chain dbg g p c libs = Ok (g', k) ->
  within A g' /\ tot (chains g') = S (tot (chains g)).
Proof.
  intros W Hp H. unfold create_chain in H. apply bind_ok in H as (bits & _ & H). apply bind_ok in H as (nx & Hnx & H).
  cbn [put_free_spot] in H. apply bind_ok in H as (g1 & H & [= <- <-]). apply (update_within A) in H as [W' E].
  - split; [exact W'|]. rewrite E. cbn [with_chains with_next chains]. rewrite tot_app. cbn. lia.
  - destruct W as [H1 H2 H3]. constructor; cbn.
    + exact H1.
    + apply (next_set A _ _ _ _ Hnx Hp H2).
    + intros k' grp E. apply lookup_app_Some in E as [E|[_ E]]; [eauto|].
      destruct (k' - length (chains g)); [|destruct n; discriminate]. injection E as <-. cbn. auto.
Qed.

Lemma u16_exact dbg a b c : u16_add dbg a b = Ok c -> (N.of_nat (a + b) < 65536)%N -> c = a + b.
Proof. unfold u16_add. intros H L. apply N.ltb_lt in L. rewrite L in H. congruence. Qed.

Lemma tot_two cs a b x y : cs !! a = Some (Some x) -> cs !! b = Some (Some y) -> a <> b -> g_num_stones x + g_num_stones y <= tot cs.
Proof.
  intros Ha Hb N. pose proof (tot_set cs a _ None Ha) as E1. assert (Hb' : <[a:=None]> cs !! b = Some (Some y)) by (rewrite list_lookup_insert_ne by exact N; exact Hb).
  pose proof (tot_set _ b _ None Hb') as E2. cbn in E1, E2. lia.
Qed.

Lemma merge_within A dbg g k1 k2 g' : within A g -> (N.of_nat (tot (chains g)) < 65536)%N -> merge_strings dbg g k1 k2 = Ok g' ->
  within A g' /\ tot (chains g') = tot (chains g).
Proof.
  intros W L H. unfold merge_strings in H. apply bind_ok in H as (c1 & H1 & H). apply bind_ok in H as (c2 & H2 & H).
  apply chain_at_ok in H1, H2. apply bind_ok in H as (_ & _ & H). apply bind_ok in H as (u & Hne & H).
  destruct (Nat.eqb_spec k1 k2) as [|N12]; [discriminate|]. clear u Hne.
  destruct (w_chain _ _ W _ _ H1) as [O1 L1], (w_chain _ _ W _ _ H2) as [O2 L2].
  destruct (if g_origin c2 <? g_origin c1 then (g_origin c2, g_last c1) else (g_origin c1, g_last c2)) as [o l] eqn:Eol.
  assert (Ho : A o /\ A l) by (destruct (g_origin c2 <? g_origin c1); injection Eol as <- <-; auto). destruct Ho as [Ho Hl].
  apply bind_ok in H as (nx & Hnx & H). apply bind_ok in H as (num & Hnum & H). apply bind_ok in H as (cs & Hcs & H).
  apply bind_ok in H as (g1 & Hg1 & H). apply bind_ok in H as (cs' & Hcs' & [= <-]).
  unfold vswap in Hnx. apply bind_ok in Hnx as (x & Hx & Hnx). apply bind_ok in Hnx as (y & Hy & Hnx). apply bind_ok in Hnx as (nx1 & Hn1 & Hn2).
  apply vget_ok in Hx, Hy.
  assert (WN : within A (with_next g nx)).
  { destruct W as [W1 W2 W3]. constructor; [exact W1| |exact W3]. cbn. apply (next_set A _ _ _ _ Hn2); [eauto|]. apply (next_set A _ _ _ _ Hn1); eauto. }
  pose proof (within_put A (with_next g nx) k1 _ cs WN Hcs Ho Hl) as WC.
  apply (update_within A) in Hg1 as [W1 E1]; [|exact WC]. cbn [with_chains chains with_next] in E1.
  apply vset_ok in Hcs' as [-> _]. rewrite E1.
  pose proof Hcs as Hput. apply chain_put_ok in Hput as (old & Hold & Ecs & Et). assert (old = c1) as -> by congruence. cbn [g_num_stones] in Et.
  assert (Hk2 : cs !! k2 = Some (Some c2)) by (rewrite Ecs, list_lookup_insert_ne by exact N12; exact H2).
  pose proof (tot_set cs k2 _ None Hk2) as Er. cbn in Er.
  pose proof (tot_two _ _ _ _ _ H1 H2 N12) as T2. apply u16_exact in Hnum; [|lia].
  split; [|cbn [with_chains chains]; lia]. destruct W1 as [V1 V2 V3]. constructor; [exact V1|exact V2|].
  cbn [with_chains chains]. rewrite <- E1. intros k grp E. apply list_lookup_insert_Some in E as [(_ & E & _)|[_ E]]; [discriminate|eauto].
Qed.

Lemma merge_all_within A dbg same : forall g t g' t', within A g -> (N.of_nat (tot (chains g)) < 65536)%N -> merge_all dbg g t same = Ok (g', t') ->
  within A g' /\ tot (chains g') = tot (chains g).
Proof.
  unfold merge_all. induction same as [|a same IH]; intros g t g' t' W L H; cbn [foldM] in H; [injection H as <- <-; auto|].
  apply bind_ok in H as ([g1 t1] & H1 & H). apply bind_ok in H1 as (ga & _ & H1). apply bind_ok in H1 as (gt & _ & H1).
  assert (M : within A g1 /\ tot (chains g1) = tot (chains g)).
  { destruct (number_of_liberties ga <? number_of_liberties gt); apply bind_ok in H1 as (g2 & H1 & E); injection E as <- <-; eapply merge_within; eassumption. }
  destruct M as [W1 E1]. apply IH in H as [W2 E2]; [|exact W1|rewrite E1; exact L]. split; [exact W2|congruence].
Qed.

Lemma with_libs_num grp l : g_num_stones (with_liberties grp l) = g_num_stones grp /\ g_origin (with_liberties grp l) = g_origin grp /\ g_last (with_liberties grp l) = g_last grp.
Proof. auto. Qed.

Lemma rl_same dbg grp p grp' : remove_liberty dbg grp p = Ok grp' ->
  g_num_stones grp' = g_num_stones grp /\ g_origin grp' = g_origin grp /\ g_last grp' = g_last grp.
Proof. unfold remove_liberty. intros H. apply bind_ok in H as (_ & _ & H). apply bind_ok in H as (l & _ & [= <-]). apply with_libs_num. Qed.

Lemma ul_same l : forall grp grp', union_liberties_slice grp l = Ok grp' ->
  g_num_stones grp' = g_num_stones grp /\ g_origin grp' = g_origin grp /\ g_last grp' = g_last grp.
Proof.
  unfold union_liberties_slice. induction l as [|i l IH]; intros grp grp' H; cbn [foldM] in H; [injection H as <-; auto|].
  apply bind_ok in H as (g1 & H1 & H). apply IH in H as (A1 & A2 & A3). unfold add_liberty_unchecked in H1. apply bind_ok in H1 as (b & _ & [= <-]). auto.
Qed.

Lemma put_same A g k grp grp' cs : within A g -> chains g !! k = Some (Some grp) -> chain_put (chains g) k grp' = Ok cs ->
  g_num_stones grp' = g_num_stones grp -> g_origin grp' = g_origin grp -> g_last grp' = g_last grp ->
  within A (with_chains g cs) /\ tot cs = tot (chains g).
Proof.
  intros W E H E1 E2 E3. destruct (w_chain _ _ W _ _ E) as [Ho Hl]. split.
  - apply (within_put A g k grp' cs W H); congruence.
  - apply chain_put_ok in H as (old & Hold & _ & T). assert (old = grp) as -> by congruence. lia.
Qed.

Lemma remove_libs_within A dbg oppo p : forall g cs0 d0 cs d, within A (with_chains g cs0) ->
  foldM (fun '(cs, dead) k =>
           let! grp := chain_at cs k in
           let! grp' := remove_liberty dbg grp p in
           let! cs' := chain_put cs k grp' in
           if is_dead grp' then let! dead' := av_push 4 dead k in Ok (cs', dead')
           else Ok (cs', dead)) oppo (cs0, d0) = Ok (cs, d) ->
  within A (with_chains g cs) /\ tot cs = tot cs0.
Proof.
  induction oppo as [|k oppo IH]; intros g cs0 d0 cs d W H; cbn [foldM] in H; [injection H as <- <-; auto|].
  apply bind_ok in H as ([cs1 d1] & H1 & H). apply bind_ok in H1 as (grp & Hg & H1). apply chain_at_ok in Hg.
  apply bind_ok in H1 as (grp' & Hr & H1). apply rl_same in Hr as (R1 & R2 & R3). apply bind_ok in H1 as (cs2 & Hp & H1).
  assert (cs1 = cs2) as -> by (destruct (is_dead grp'); [apply bind_ok in H1 as (? & _ & H1)|]; congruence).
  destruct (put_same A (with_chains g cs0) k grp grp' cs2 W Hg Hp R1 R2 R3) as [W1 T1].
  apply (IH g) in H as [W2 T2]; [split; [exact W2|]|exact W1]. cbn [with_chains chains] in T1. congruence.
Qed.

Lemma add_within A dbg g k p g' : within A g -> A p -> (N.of_nat (S (tot (chains g))) < 65536)%N -> add_stone_to_chain dbg g k p = Ok g' ->
  within A g' /\ tot (chains g') = S (tot (chains g)).
Proof.
  intros W Hp L H. unfold add_stone_to_chain in H. apply bind_ok in H as (grp & Hg & H). apply chain_at_ok in Hg.
  destruct (w_chain _ _ W _ _ Hg) as [Ho Hl]. apply bind_ok in H as ([[nx o] l] & Hnx & H).
  apply bind_ok in H as (num & Hnum & H). apply bind_ok in H as (cs & Hcs & H). apply bind_ok in H as (_ & _ & [= <-]).
  assert (X : A o /\ A l /\ within A (with_next g nx)).
  { destruct (p <? g_origin grp); apply bind_ok in Hnx as (nx1 & Hn1 & Hnx); apply bind_ok in Hnx as (nx2 & Hn2 & E); injection E as <- <- <-;
    (split; [assumption|]; split; [assumption|]); destruct W as [W1 W2 W3]; (constructor; [exact W1| |exact W3]); cbn;
    (apply (next_set A _ _ _ _ Hn2); [assumption|]; apply (next_set A _ _ _ _ Hn1); assumption). }
  destruct X as (Xo & Xl & XW). split; [apply (within_put A (with_next g nx) k _ cs XW Hcs Xo Xl)|].
  apply chain_put_ok in Hcs as (old & Hold & _ & T). assert (old = grp) as -> by congruence. cbn [g_num_stones] in T.
  assert (B : g_num_stones grp <= tot (chains g)) by (pose proof (tot_set _ _ _ None Hg); cbn in *; lia).
  apply u16_exact in Hnum; [|lia]. cbn [with_chains chains with_next] in *. lia.
Qed.

Lemma place_within A dbg g p c same libs g' u : within A g -> A p -> (N.of_nat (S (tot (chains g))) < 65536)%N ->
  place_stone dbg g p c same libs = Ok (g', u) -> within A g' /\ tot (chains g') = S (tot (chains g)).
Proof.
  intros W Hp L H. unfold place_stone in H. destruct same as [|k [|k2 same]].
  - eapply create_within; eassumption.
  - apply bind_ok in H as (g0 & Hg & H). apply chain_at_ok in Hg. apply bind_ok in H as (g1 & H1 & H). apply rl_same in H1 as (A1 & A2 & A3).
    apply bind_ok in H as (g2 & H2 & H). apply ul_same in H2 as (B1 & B2 & B3). apply bind_ok in H as (cs & Hcs & H).
    destruct (put_same A g k g0 g2 cs W Hg Hcs) as [W1 T1]; [congruence..|].
    apply bind_ok in H as (g3 & H3 & H). apply (add_within A) in H3 as [W3 T3]; [|exact W1|exact Hp|cbn [with_chains chains]; rewrite T1; exact L].
    apply bind_ok in H as (k' & _ & H). apply bind_ok in H as (b & Hb & [= <- <-]).
    split; [apply (within_set_board A g3 p _ b W3 Hb Hp)|]. cbn [with_board chains]. rewrite T3. cbn [with_chains chains]. congruence.
  - apply bind_ok in H as ([g1 t1] & H1 & H). apply (create_within A) in H1 as [W1 T1]; [|exact W|exact Hp].
    apply bind_ok in H as ([g2 t2] & H2 & H). apply (merge_all_within A) in H2 as [W2 T2]; [|exact W1|rewrite T1; exact L].
    apply bind_ok in H as (g3 & H3 & H). apply chain_at_ok in H3. apply bind_ok in H as (g4 & H4 & H). apply rl_same in H4 as (A1 & A2 & A3).
    apply bind_ok in H as (cs & Hcs & [= <- <-]). destruct (put_same A g2 t2 g3 g4 cs W2 H3 Hcs A1 A2 A3) as [W5 T5].
    split; [exact W5|]. cbn [with_chains chains]. congruence.
Qed.

Lemma feedback_within A dbg g pt c g' d u : within A g -> A (two_to_1dim (gsize g) pt) -> (N.of_nat (S (tot (chains g))) < 65536)%N ->
  push_wth_feedback dbg g pt c = Ok (g', d, u) -> within A g' /\ tot (chains g') = S (tot (chains g)).
Proof.
  intros W Hp L H. unfold push_wth_feedback in H. apply bind_ok in H as (nbs & _ & H). apply bind_ok in H as ([[same oppo] libs] & _ & H).
  apply bind_ok in H as ([cs dead] & Hr & H). apply bind_ok in H as ([g1 t] & H1 & H). apply bind_ok in H as (z & _ & H).
  apply bind_ok in H as (_ & _ & H). injection H as <- <- <-.
  unfold remove_liberties in Hr. apply (remove_libs_within A dbg oppo _ g) in Hr as [W1 T1]; [|destruct W as [V1 V2 V3]; constructor; assumption].
  apply (place_within A) in H1 as [W2 T2]; [|exact W1|exact Hp|cbn [with_chains chains]; rewrite T1; exact L].
  cbn [with_chains chains] in T2. split; [destruct W2 as [V1 V2 V3]; constructor; assumption|]. cbn [with_hash chains]. congruence.
Qed.
End Within.

Lemma links_in nx l : forall e i j, links nx l e -> i ∈ l -> nx !! i = Some j -> j ∈ l \/ j = e.
Proof.
  induction l as [|a l IH]; intros e i j H Hi Hj; [inversion Hi|]. destruct H as [H1 H2]. apply elem_of_cons in Hi as [->|Hi].
  - rewrite H1 in Hj. injection Hj as <-. destruct l as [|b l]; cbn; [auto|]. left. right. left.
  - destruct (IH e i j H2 Hi Hj); [left; right; assumption|auto].
Qed.

Lemma wf_within n g : wf n g -> within (n, n) (fun i => cell g i <> None) g.
Proof.
  intros W. pose proof (wf_0 n g W) as W0. constructor.
  - split; [apply (wf_size n g W)|]. intros i k H E. apply cell_lookup in H. congruence.
  - intros i j Hi Hj. destruct (cell g i) as [k|] eqn:Ei; [|congruence]. destruct (wf0_cell g W0 i k Ei) as [grp Hk].
    destruct (wf0_chain g W0 k grp Hk) as (_ & l & R & Hl). assert (Hjl : j ∈ l).
    { destruct (links_in _ _ _ i j (ring_links _ _ _ R)) as [H| ->]; [apply Hl, Ei|exact Hj|exact H|].
      pose proof (ring_head _ _ _ R) as Hh. destruct l; [discriminate|]. injection Hh as <-. left. }
    apply Hl in Hjl. congruence.
  - intros k grp Hk. assert (Hlive : live g k = Some grp) by (unfold live; rewrite Hk; reflexivity).
    destruct (wf0_chain g W0 k grp Hlive) as (_ & l & R & Hl). pose proof (ring_head _ _ _ R) as Hh. pose proof (ring_last _ _ _ R) as Ht.
    assert (H1 : g_origin grp ∈ l) by (destruct l; [discriminate|]; injection Hh as <-; left).
    assert (H2 : g_last grp ∈ l) by (apply last_Some in Ht as (l' & ->); apply elem_of_app; right; left).
    apply Hl in H1, H2. split; congruence.
Qed.

Lemma filter_fewer (P Q : pos) l : (forall p, p ∈ l -> P p = None -> Q p = None) ->
  length (filter (fun p => Q p = Some Black) l) + length (filter (fun p => Q p = Some White) l) <=
  length (filter (fun p => P p = Some Black) l) + length (filter (fun p => P p = Some White) l).
Proof.
  induction l as [|p l IH]; intros H; [reflexivity|]. assert (IH' := IH (fun q Hq => H q (elem_of_list_further _ _ _ Hq))).
  specialize (H p (elem_of_list_here _ _)). rewrite !filter_cons. destruct (P p) as [[]|] eqn:EP, (Q p) as [[]|] eqn:EQ;
  try (specialize (H eq_refl); discriminate); repeat (case_decide; try discriminate; try congruence); cbn [length]; lia.
Qed.

Lemma claim_occupied dbg n m g p c g' : breach dbg n m g -> on n p -> pos_of g p <> None -> push dbg g p c = Ok g' ->
  fst (number_of_stones g') + snd (number_of_stones g') = S (count n (pos_of g) Black + count n (pos_of g) White) /\
  (forall q, on n q -> pos_of g q = None -> pos_of g' q = None) /\
  number_of_stones g' <> (count n (pos_of g') Black, count n (pos_of g') White).
Proof.
  intros HB Hp Hocc H. pose proof (breach_wf _ _ _ _ HB) as W. pose proof (wf_0 n g W) as W0.
  unfold push in H. apply bind_ok in H as (_ & _ & H). apply bind_ok in H as (_ & _ & H). apply bind_ok in H as ([[g1 d] u] & H & [= <-]).
  pose proof (claim_counts dbg n m g HB) as [HC _]. pose proof (stones_tot g) as T. rewrite HC in T. cbn [fst snd] in T.
  assert (L : (N.of_nat (S (tot (chains g))) < 65536)%N).
  { rewrite <- T. unfold count. pose proof (filter_length (fun p => pos_of g p = Some Black) (points n)) as A1.
    pose proof (filter_length (fun p => pos_of g p = Some White) (points n)) as A2.
    assert (A3 : length (points n) = n * n) by (unfold points; etransitivity; [apply List.prod_length|rewrite !seq_length; reflexivity]).
    pose proof (wf_n n g W) as Hn. assert (A4 : n * n <= 361) by nia. lia. }
  assert (Hocc' : cell g (two_to_1dim (gsize g) p) <> None).
  { intros E. apply Hocc. unfold pos_of, get_color, get_color_idx. unfold cell in E. unfold vget. destruct (board g !! two_to_1dim (gsize g) p) as [[]|]; cbn in *; congruence. }
  apply (feedback_within (n, n) _ dbg g p c g1 d u (wf_within n g W) Hocc' L) in H as [W1 T1].
  assert (HM : forall q, on n q -> pos_of g q = None -> pos_of g1 q = None).
  { intros q Hq Eq. destruct (w_cell _ _ _ W1) as [Hs Hc]. unfold pos_of, get_color, get_color_idx. rewrite Hs.
    unfold vget. destruct (board g1 !! two_to_1dim (n, n) q) as [[k|]|] eqn:E; cbn; try reflexivity. exfalso. apply Hc in E. apply E.
    rewrite (pos_of_col n g q W Hq) in Eq. apply (col_None n g _ W) in Eq. exact Eq. }
  rewrite stones_tot, T1, <- T. split; [reflexivity|]. split; [exact HM|]. intros E. pose proof (stones_tot g1) as T2. rewrite E, T1, <- T in T2. cbn [fst snd] in T2.
  assert (F : count n (pos_of g1) Black + count n (pos_of g1) White <= count n (pos_of g) Black + count n (pos_of g) White).
  { apply filter_fewer. intros q Hq. apply HM. apply elem_of_points. exact Hq. }
  lia.
Qed.

Lemma case_occupied dbg : exists m g g', breach dbg 3 m g /\ on 3 (1, 1) /\ pos_of g (1, 1) <> None /\ push dbg g (1, 1) White = Ok g'.
Proof.
  destruct (occupied_breaks dbg) as (g & b & w & g' & gb & HG & HP & _ & E & _).
  exists (b + w), (gm_goban g), gb. split; [exact (br_game dbg 3 b w g HG)|]. split; [split; cbn; lia|]. split; [congruence|exact E].
Qed.
