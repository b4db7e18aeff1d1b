(** Stones played below the last row. *)
From stdpp Require Import relations sorting.
From Verif Require Import MonadFacts BitsetFacts CoordFacts Struct Push Inv Remove Capture Bridge GameFacts LegalFacts PropFacts ClaimFacts RefuteFacts CaseFacts OverFacts.
From Verif Require Import RulesFacts BoundsFacts.
From Verif Require Export Observe Reach BelowSpec.
From Coq Require Import Lia.

Local Notation length := Datatypes.length.
Open Scope nat_scope.

(** the only neighbour is the point above, for the row next to the board *)
Definition up (n : nat) (p : coord) : list nat := if fst p =? n then [(n - 1) * n + snd p] else [].

Lemma neighbors_below dbg n p : 1 <= n <= 19 -> below n p -> neighbors_idx dbg (n, n) (idx n p) = Ok (up n p).
Proof.
  intros Hn (Hr & Hc & Hi). destruct p as [r c]. cbn [fst snd] in *. unfold neighbors_idx, one_to_2dim. cbn [fst snd].
  destruct (n =? 0) eqn:E0; [apply Nat.eqb_eq in E0; lia|]. cbn [orb].
  destruct (divmod_idx n r c Hc) as [D1 D2]. unfold idx. cbn [fst snd]. rewrite D1, D2.
  unfold as_u8. rewrite !Nat.mod_small by lia. cbn [bind].
  unfold valid_coords, neighbor_coords, u8_add.
  destruct (r + 1 <? 256) eqn:E1; [|apply Nat.ltb_ge in E1; lia]. destruct (c + 1 <? 256) eqn:E2; [|apply Nat.ltb_ge in E2; lia].
  cbn [bind]. unfold is_coord_valid, u8_wrapping_pred, up. cbn [List.filter fst snd].
  replace (r + 1 <? n) with false by (symmetry; apply Nat.ltb_ge; lia). replace (r <? n) with false by (symmetry; apply Nat.ltb_ge; lia).
  cbn [andb]. destruct r as [|r]; [lia|]. replace (c <? n) with true by (symmetry; apply Nat.ltb_lt; lia). rewrite andb_true_r.
  destruct (S r =? n) eqn:E3.
  - apply Nat.eqb_eq in E3. replace (r <? n) with true by (symmetry; apply Nat.ltb_lt; lia). cbn [map bind]. unfold two_to_1dim. cbn [fst snd].
    do 2 f_equal. rewrite <- E3 at 2. lia.
  - apply Nat.eqb_neq in E3. replace (r <? n) with false by (symmetry; apply Nat.ltb_ge; lia). reflexivity.
Qed.

Lemma up_bound n p j : below n p -> j ∈ up n p -> j < n * n.
Proof.
  intros (Hr & Hc & _). unfold up. destruct (fst p =? n); intros H; [|inversion H]. apply elem_of_list_singleton in H. subst j.
  apply idx_bound; lia.
Qed.

Lemma up_length n p : length (up n p) <= 1.
Proof. unfold up. destruct (_ =? _); cbn; lia. Qed.

Lemma up_single n p a b : a ∈ up n p -> b ∈ up n p -> a = b.
Proof.
  unfold up. destruct (_ =? _); intros Ha Hb; [|inversion Ha]. apply elem_of_list_singleton in Ha, Hb. congruence.
Qed.

Lemma below_idx n p : below n p -> n * n <= idx n p < 361.
Proof. intros (Hr & _ & Hi). unfold idx. split; [|exact Hi]. pose proof (Nat.mul_le_mono_r n (fst p) n). lia. Qed.

Lemma below_adj n p q : below n p -> on n q -> adj p q <-> idx n q ∈ up n p.
Proof.
  intros (Hr & Hc & Hi) Hq. destruct p as [r c], q as [a b]. destruct Hq as [Ha Hb]. cbn in *. unfold up, adj, idx. cbn [fst snd].
  destruct (r =? n) eqn:E.
  - apply Nat.eqb_eq in E. subst r. rewrite elem_of_list_singleton. split; [intros H|].
    + assert (a = n - 1 /\ b = c) as [-> ->] by lia. reflexivity.
    + intros H. assert (a = n - 1 /\ b = c) as [-> ->].
      { destruct (divmod_idx n a b Hb) as [D1 D2]. destruct (divmod_idx n (n - 1) c Hc) as [D3 D4]. rewrite H in D1, D2. lia. }
      lia.
  - apply Nat.eqb_neq in E. split; [lia|]. intros H. inversion H.
Qed.

(** What the board looks like after a stone below the last row. *)
Record laid (n : nat) (g : goban) (p : coord) (c : color) (g2 : goban) (u : nat) (grpu : group) : Prop := mkLaid {
  la_wf : wf0 g2;
  la_size : gsize g2 = gsize g;
  la_live : live g2 u = Some grpu;
  la_color : g_color grpu = c;
  la_at : cell g2 (idx n p) = Some u;
  la_col : forall j, col g2 j = if decide (j = idx n p) then Some c else col g j;
  la_dead : is_dead grpu = true <-> forall j, j ∈ up n p -> col g j = Some (opp c);
  la_bit : forall k grp, live g2 k = Some grp -> lbit (g_liberties grp) (idx n p) = false;
  la_alone : is_dead grpu = true -> forall j, cell g2 j = Some u -> j = idx n p
}.

Lemma below_placed dbg n g g1 p c same libs :
  (dbg = true -> same = []) -> wf n g -> below n p -> (N.of_nat (length (chains g)) < 65535)%N ->
  wf0 g1 -> board g1 = board g -> gsize g1 = gsize g -> length (chains g1) = length (chains g) ->
  (forall k grp, live g k = Some grp -> exists grp', live g1 k = Some grp' /\ g_color grp' = g_color grp /\
     lbit (g_liberties grp') (idx n p) = false) ->
  (forall k grp, k ∈ same -> live g1 k = Some grp -> exists j, lbit (g_liberties grp) j = true) ->
  (forall k, live g k = None -> live g1 k = None) ->
  NoDup same -> (forall k, k ∈ same <-> exists j grp, j ∈ up n p /\ cell g j = Some k /\ live g k = Some grp /\ g_color grp = c) ->
  (forall j, j ∈ libs <-> j ∈ up n p /\ cell g j = None) ->
  exists g2 u grpu, place_stone dbg g1 (idx n p) c same libs = Ok (g2, u) /\ laid n g p c g2 u grpu.
Proof.
  intros Hdb W Hp Hlen W1 Eb Es Ecs V Val Vn Nd Hsame Hlibs. set (i := idx n p) in *.
  pose proof (wf_n n g W) as Hn. pose proof (sq_le n Hn) as Hsq. pose proof (below_idx n p Hp) as Hi. fold i in Hi.
  assert (Ecell : forall j, cell g1 j = cell g j) by (intros j; unfold cell; rewrite Eb; reflexivity).
  assert (Hi0 : cell g i = None).
  { destruct (cell g i) as [k|] eqn:E; [|reflexivity]. apply (wf_on n g W) in E. lia. }
  assert (Hs1 : forall k, k ∈ same -> exists gk, live g1 k = Some gk /\ g_color gk = c /\ lbit (g_liberties gk) i = false /\ exists j, lbit (g_liberties gk) j = true).
  { intros k Hk. pose proof (proj1 (Hsame k) Hk) as (j & grp & _ & _ & Hl & Hcol). destruct (V k grp Hl) as (gk & A1 & A2 & A3).
    exists gk. split; [exact A1|]. split; [congruence|]. split; [exact A3|]. apply (Val k gk Hk A1). }
  destruct (place_spec dbg g1 i c same libs) as [(E & F & _)|(g' & u & grpu & E & W' & Sz & Z & L & Hu & C' & V' & Colu & Bu)].
  { exact W1. } { lia. } { rewrite Ecell. exact Hi0. } { exact Nd. }
  { intros k Hk. destruct (Hs1 k Hk) as (gk & A1 & A2 & _). exists gk. split; [exact A1|]. split; [exact A2|intros Ed; rewrite (Hdb Ed) in Hk; inversion Hk]. }
  { intros j Hj. apply Hlibs in Hj as [Hj _]. apply up_bound in Hj; [lia|exact Hp]. }
  { intros H. apply Hlibs in H as [H _]. apply up_bound in H; [lia|exact Hp]. }
  { exfalso. lia. }
  assert (Liveu : live g' u = Some grpu) by (rewrite V'; destruct (decide (u = u)); [reflexivity|contradiction]).
  assert (Fresh : forall k, k ∉ same -> is_Some (live g k) -> k <> u).
  { intros k N1 [x Hx] ->. destruct Hu as [Hu|Hu]; [|contradiction]. apply live_lt in Hx. lia. }
  assert (Gi : cell g' i = Some u) by (rewrite C'; destruct (decide _) as [|H]; [reflexivity|destruct H; auto]).
  assert (Hk : forall j k, j <> i -> cell g j = Some k ->
     (k ∈ same /\ cell g' j = Some u) \/ (k ∉ same /\ cell g' j = Some k /\ k <> u /\ live g' k = live g1 k)).
  { intros j k Hj Ek. rewrite C', Ecell, Ek. destruct (decide (k ∈ same)) as [Hk|Hk].
    - left. split; [exact Hk|]. destruct (decide _) as [|N0]; [reflexivity|]. destruct N0. right. apply elem_of_list_fmap. eauto.
    - right. split; [exact Hk|]. assert (Hku : k <> u) by (apply Fresh; [exact Hk|apply (wf0_cell g (wf_0 n g W) j k Ek)]).
      split; [|split; [exact Hku|]].
      + destruct (decide _) as [[H|H]|]; [contradiction| |reflexivity]. apply elem_of_list_fmap in H as (y & Hy & Hy'). congruence.
      + rewrite V'. destruct (decide (k = u)); [contradiction|]. destruct (decide (k ∈ same)); [contradiction|reflexivity]. }
  exists g', u, grpu. split; [exact E|]. constructor; fold i.
  - exact W'.
  - rewrite Sz. exact Es.
  - exact Liveu.
  - exact Colu.
  - exact Gi.
  - intros j. destruct (decide (j = i)) as [->|Hj]; [rewrite (col_eq g' i u grpu Gi Liveu); congruence|].
    destruct (cell g j) as [k|] eqn:Ek.
    + destruct (wf0_cell g (wf_0 n g W) j k Ek) as [grp Hg]. rewrite (col_eq g j k grp Ek Hg). destruct (V k grp Hg) as (grp' & A1 & A2 & _).
      destruct (Hk j k Hj Ek) as [[H1 H2]|(H1 & H2 & H3 & H4)].
      * rewrite (col_eq g' j u grpu H2 Liveu), Colu. apply Hsame in H1 as (_ & grp0 & _ & _ & H5 & H6). congruence.
      * rewrite (col_eq g' j k grp' H2); [congruence|]. rewrite H4. exact A1.
    + unfold col at 2. rewrite Ek. unfold col. replace (cell g' j) with (@None nat); [reflexivity|]. symmetry. rewrite C', Ecell, Ek.
      destruct (decide _) as [[H|H]|]; [contradiction| |reflexivity]. apply elem_of_list_fmap in H as (y & Hy & _). discriminate Hy.
  - destruct (wf0_chain g' W' u grpu Liveu) as [Hbo _]. rewrite (is_dead_spec grpu Hbo). split.
    + intros Hd j Hj. destruct (cell g j) as [k|] eqn:Ek.
      * destruct (wf0_cell g (wf_0 n g W) j k Ek) as [grp Hg]. rewrite (col_eq g j k grp Ek Hg). f_equal.
        destruct (decide (g_color grp = c)) as [Hc|Hc]; [|apply ne_opp in Hc; exact Hc]. exfalso.
        assert (Hks : k ∈ same) by (apply Hsame; exists j, grp; auto). destruct (Hs1 k Hks) as (gk & A1 & _ & A3 & j' & A4).
        specialize (Hd j'). enough (lbit (g_liberties grpu) j' = true) by congruence. apply Bu. split; [intros ->; congruence|]. right. eauto.
      * exfalso. specialize (Hd j). enough (lbit (g_liberties grpu) j = true) by congruence. apply Bu. split; [|left; apply Hlibs; auto].
        intros ->. apply up_bound in Hj; [lia|exact Hp].
    + intros H j. apply not_true_iff_false. intros Hb. apply Bu in Hb as [_ [Hb|(k & gk & Hb & _)]].
      * apply Hlibs in Hb as [Hb1 Hb2]. specialize (H j Hb1). unfold col in H. rewrite Hb2 in H. discriminate H.
      * apply Hsame in Hb as (j' & grp & B1 & B2 & B3 & B4). specialize (H j' B1). rewrite (col_eq g j' k grp B2 B3) in H. rewrite B4 in H. destruct c; discriminate H.
  - intros k grp Hg. apply not_true_iff_false. intros Hb. rewrite V' in Hg. destruct (decide (k = u)) as [->|].
    + injection Hg as <-. apply Bu in Hb as [Hb _]. contradiction.
    + destruct (decide (k ∈ same)); [discriminate Hg|]. destruct (live g k) as [g0|] eqn:Eg; [|rewrite (Vn k Eg) in Hg; discriminate Hg].
      destruct (V k g0 Eg) as (grp' & A1 & _ & A3). congruence.
  - intros Hd j Hj. destruct (decide (j = i)) as [|Hji]; [assumption|]. exfalso.
    destruct (wf0_chain g' W' u grpu Liveu) as [Hbo _]. rewrite (is_dead_spec grpu Hbo) in Hd.
    rewrite C' in Hj. destruct (decide _) as [[H|H]|Hno]; [contradiction| |].
    + rewrite Ecell in H. apply elem_of_list_fmap in H as (k & _ & Hks). destruct (Hs1 k Hks) as (gk & A1 & _ & A3 & j' & A4).
      specialize (Hd j'). enough (lbit (g_liberties grpu) j' = true) by congruence. apply Bu. split; [intros ->; congruence|]. right. eauto.
    + rewrite Ecell in Hj. destruct Hu as [Hu|Hu]; [|apply Hno; right; rewrite Ecell, Hj; apply elem_of_list_fmap; eauto].
      destruct (wf0_cell g (wf_0 n g W) j u Hj) as [x Hx]. apply live_lt in Hx. lia.
Qed.

(** * The move *)
Definition clear_above (n : nat) (g : goban) (p : coord) : Prop := forall j, j ∈ up n p -> cell g j = None.

Lemma below_push dbg n g p c : wf n g -> alive g -> below n p -> (dbg = true -> clear_above n g p) -> (N.of_nat (length (chains g)) < 65535)%N ->
  exists g2 u grpu, push_wth_feedback dbg g p c = Ok (g2, [], u) /\ laid n g p c g2 u grpu.
Proof.
  intros W Al Hp Hdb Hlen. pose proof (wf_n n g W) as Hn. pose proof (wf_0 n g W) as W0. pose proof (sq_le n Hn) as Hsq.
  pose proof (below_idx n p Hp) as Hi.
  unfold push_wth_feedback. rewrite (wf_size n g W), two_idx', (neighbors_below dbg n p Hn Hp). cbn [bind].
  destruct (classify_spec g c (up n p) W0) as (same & oppo & libs & Ec & Nd1 & Nd2 & L1 & L2 & Hsame & Hoppo & Hlibs).
  { intros j Hj. apply up_bound in Hj; [lia|exact Hp]. } { pose proof (up_length n p). lia. }
  rewrite Ec. cbn [bind].
  assert (Hbits : forall k grp, live g k = Some grp -> lbit (g_liberties grp) (idx n p) = false /\ exists j, lbit (g_liberties grp) j = true).
  { intros k grp Hg. split; [|apply (Al k grp Hg)]. apply not_true_iff_false. intros H. apply (wf_lib n g W k grp _ Hg) in H as (_ & x & Hx & Hj).
    apply nb_bound in Hj; [lia|lia|apply (wf_on n g W _ _ Hx)]. }
  assert (Hds : dbg = true -> same = [] /\ oppo = []).
  { intros Ed. specialize (Hdb Ed). split.
    - destruct same as [|k ks]; [reflexivity|]. destruct (proj1 (Hsame k) ltac:(left)) as (j & grp & A1 & A2 & _). rewrite (Hdb j A1) in A2. discriminate A2.
    - destruct oppo as [|k ks]; [reflexivity|]. destruct (proj1 (Hoppo k) ltac:(left)) as (j & grp & A1 & A2 & _). rewrite (Hdb j A1) in A2. discriminate A2. }
  assert (R : exists cs, remove_liberties dbg (chains g) oppo (idx n p) = Ok (cs, []) /\ length cs = length (chains g) /\ wf0 (with_chains g cs) /\
    (forall k, live g k = None -> live (with_chains g cs) k = None) /\
    (forall k grp, live g k = Some grp -> exists grp', live (with_chains g cs) k = Some grp' /\ g_color grp' = g_color grp /\
        forall j, lbit (g_liberties grp') j = lbit (g_liberties grp) j)).
  { destruct dbg.
    - destruct (Hds eq_refl) as [_ ->]. exists (chains g). assert (Eg : with_chains g (chains g) = g) by (destruct g; reflexivity). rewrite Eg.
      split; [reflexivity|]. split; [reflexivity|]. split; [exact W0|]. split; [auto|]. intros k grp Hk. exists grp. auto.
    - apply (remove_liberties_none g oppo (idx n p) ltac:(lia) g W0 eq_refl); [|exact Hbits].
      intros k Hk. apply Hoppo in Hk as (_ & grp & _ & _ & H & _). eauto. }
  destruct R as (cs & Erl & Lcs & W1 & N1 & V1). rewrite Erl. cbn [bind]. set (g1 := with_chains g cs) in *.
  destruct (below_placed dbg n g g1 p c same libs) as (g2 & u & grpu & E & O); try assumption; try reflexivity.
  { intros Ed. apply (Hds Ed). }
  { intros k grp Hg. destruct (V1 k grp Hg) as (grp' & A1 & A2 & A3). exists grp'. split; [exact A1|]. split; [exact A2|]. rewrite A3. apply (Hbits k grp Hg). }
  { intros k grp Hk Hg. apply Hsame in Hk as (_ & grp0 & _ & _ & Hk & _). destruct (V1 k grp0 Hk) as (grp' & A1 & _ & A3). assert (grp' = grp) as <- by congruence.
    destruct (Hbits k grp0 Hk) as [_ (j & B)]. exists j. rewrite A3. exact B. }
  rewrite E. cbn [bind]. rewrite index_zobrist_ok by lia. cbn [bind].
  assert (Wh : wf0 (with_hash g2 (N.lxor (zobrist_hash g2) (zval (idx n p) c)))) by (destruct (la_wf _ _ _ _ _ _ _ O) as [A1 A2 A3 A4 A5]; constructor; assumption).
  eexists _, u, grpu. split.
  - destruct dbg; [rewrite integrity_ok; [reflexivity|exact Wh]|reflexivity].
  - destruct O. constructor; assumption.
Qed.

Lemma below_panics n g p c : wf n g -> below n p -> ~ clear_above n g p -> push_wth_feedback true g p c = Panic.
Proof.
  intros W Hp Hnc. pose proof (wf_n n g W) as Hn. pose proof (wf_0 n g W) as W0. pose proof (sq_le n Hn) as Hsq.
  pose proof (below_idx n p Hp) as Hi.
  unfold push_wth_feedback. rewrite (wf_size n g W), two_idx', (neighbors_below true n p Hn Hp). cbn [bind].
  destruct (classify_spec g c (up n p) W0) as (same & oppo & libs & Ec & Nd1 & Nd2 & L1 & L2 & Hsame & Hoppo & Hlibs).
  { intros j Hj. apply up_bound in Hj; [lia|exact Hp]. } { pose proof (up_length n p). lia. }
  rewrite Ec. cbn [bind].
  assert (Hbits : forall k grp, live g k = Some grp -> lbit (g_liberties grp) (idx n p) = false).
  { intros k grp Hg. apply not_true_iff_false. intros H. apply (wf_lib n g W k grp _ Hg) in H as (_ & x & Hx & Hj).
    apply nb_bound in Hj; [lia|lia|apply (wf_on n g W _ _ Hx)]. }
  destruct oppo as [|k ks].
  - cbn [remove_liberties foldM bind]. assert (Eg : with_chains g (chains g) = g) by (destruct g; reflexivity). rewrite Eg.
    assert (Hone : forall k, k ∈ same -> same = [k]).
    { intros k Hk. destruct same as [|a [|b ks]]; [inversion Hk|apply elem_of_list_singleton in Hk; congruence|]. exfalso.
      destruct (proj1 (Hsame a) ltac:(left)) as (j1 & g1 & A1 & A2 & _). destruct (proj1 (Hsame b) ltac:(right; left)) as (j2 & g2 & B1 & B2 & _).
      rewrite (up_single n p j1 j2 A1 B1) in A2. apply NoDup_cons in Nd1 as [Nd1 _]. apply Nd1. replace a with b by congruence. left. }
    assert (Hne : exists k, k ∈ same).
    { destruct same as [|k ks]; [|exists k; left]. exfalso. apply Hnc. intros j Hj. destruct (cell g j) as [k|] eqn:Ek; [|reflexivity]. exfalso.
      destruct (wf0_cell g W0 j k Ek) as [grp Hg]. destruct (decide (g_color grp = c)) as [Hc|Hc].
      - enough (H : k ∈ []) by inversion H. apply Hsame. exists j, grp. auto.
      - apply ne_opp in Hc. enough (H : k ∈ []) by inversion H. apply Hoppo. exists j, grp. auto. }
    destruct Hne as (k & Hk). rewrite (Hone k Hk) in *. cbn [place_stone].
    destruct (proj1 (Hsame k) ltac:(left)) as (j & grp & A1 & A2 & A3 & A4). rewrite (chain_at_live _ _ _ A3). cbn [bind].
    rewrite remove_liberty_panics; [reflexivity|apply (wf0_chain g W0 k grp A3)|lia|apply (Hbits k grp A3)].
  - unfold remove_liberties. cbn [foldM]. destruct (proj1 (Hoppo k) ltac:(left)) as (j & grp & A1 & A2 & A3 & A4). rewrite (chain_at_live _ _ _ A3). cbn [bind].
    rewrite remove_liberty_panics; [reflexivity|apply (wf0_chain g W0 k grp A3)|lia|apply (Hbits k grp A3)].
Qed.

(** the stone that finds no liberty is taken off again *)
Lemma below_remove dbg n g p c g2 u grpu : wf n g -> below n p -> laid n g p c g2 u grpu -> is_dead grpu = true ->
  g_num_stones grpu = 1 /\
  exists g3, remove_chain dbg g2 u = Ok g3 /\ gsize g3 = gsize g /\ length (board g3) = 361 /\
    (forall j k, cell g3 j = Some k -> is_Some (live g3 k)) /\ (forall j, col g3 j = if decide (j = idx n p) then None else col g j).
Proof.
  intros W Hp O Hd. set (i := idx n p) in *. pose proof (wf_n n g W) as Hn. pose proof (sq_le n Hn) as Hsq. pose proof (below_idx n p Hp) as Hi. fold i in Hi.
  pose proof (la_wf _ _ _ _ _ _ _ O) as W2. pose proof (la_alone _ _ _ _ _ _ _ O Hd) as Hone. fold i in Hone.
  destruct (wf0_chain g2 W2 u grpu (la_live _ _ _ _ _ _ _ O)) as [_ (l0 & R & M)].
  assert (El0 : l0 = [i]).
  { assert (Hl : forall j, j ∈ l0 <-> j = i).
    { intros j. rewrite M. split; [apply Hone|intros ->; apply (la_at _ _ _ _ _ _ _ O)]. }
    destruct l0 as [|a [|b l]].
    - exfalso. enough (i ∈ []) as Hx by inversion Hx. apply Hl. reflexivity.
    - f_equal. apply Hl. left.
    - exfalso. pose proof (ring_nodup _ _ _ R) as Nd. apply NoDup_cons in Nd as [Nd _]. apply Nd. rewrite (proj1 (Hl a)), (proj1 (Hl b)); [left|right; left|left]. }
  subst l0. split; [symmetry; apply (ring_num _ _ _ R)|].
  unfold remove_chain. rewrite (chain_at_live _ _ _ (la_live _ _ _ _ _ _ _ O)). cbn [bind].
  rewrite (group_for_iter _ _ _ _ _ _ (wf0_iter dbg g2 u grpu [i] W2 R M)). cbn [foldM].
  pose proof (wf0_board g2 W2) as Hb. pose proof (la_size _ _ _ _ _ _ _ O) as Hs. rewrite (wf_size n g W) in Hs.
  unfold get_connected_groups_idx. rewrite Hs. unfold i at 1. rewrite (neighbors_below dbg n p Hn Hp). cbn [bind].
  destruct (connected_gen (board g2) (cell g2) (up n p) []) as (l & El & Nl & Hl).
  { intros j Hj. apply vget_board. apply up_bound in Hj; [lia|exact Hp]. } { apply NoDup_nil_2. } { pose proof (up_length n p). cbn. lia. }
  rewrite El. cbn [bind].
  set (ks := List.filter _ l).
  assert (Hks : forall k, k ∈ ks -> k <> u /\ exists j, cell g2 j = Some k).
  { intros k Hk. unfold ks in Hk. apply elem_of_list_In, filter_In in Hk as [Hk Hu]. apply elem_of_list_In, Hl in Hk as [Hk|(j & _ & Hj)]; [inversion Hk|].
    rewrite negb_true_iff, Nat.eqb_neq in Hu. eauto. }
  destruct (add_all_gen dbg i ks (chains g2)) as (cs & Ea & Lc & A & B).
  { lia. } { unfold ks. apply NoDup_ListNoDup, List.NoDup_filter, NoDup_ListNoDup, Nl. }
  { intros k Hk. destruct (Hks k Hk) as (_ & j & Hj). destruct (wf0_cell g2 W2 j k Hj) as [grp Hg]. exists grp. split; [exact Hg|].
    split; [apply (wf0_chain g2 W2 k grp Hg)|apply (la_bit _ _ _ _ _ _ _ O k grp Hg)]. }
  rewrite Ea. cbn [bind]. rewrite index_zobrist_ok by lia. cbn [bind]. rewrite vset_ok by lia. cbn [bind chains].
  assert (Hu : u < length cs) by (rewrite Lc; eapply live_lt; apply (la_live _ _ _ _ _ _ _ O)).
  unfold chains_remove. rewrite vset_ok by exact Hu. cbn [bind]. eexists. split; [reflexivity|]. split; [cbn; rewrite ?Hs; symmetry; apply (wf_size n g W)|].
  split; [cbn [with_chains board]; rewrite insert_length; exact Hb|].
  match goal with |- (forall j k, cell ?x j = _ -> _) /\ _ => set (g3 := x) end.
  assert (Hi3 : cell g3 i = None).
  { unfold cell. cbn [g3 with_chains board]. rewrite list_lookup_insert by lia. reflexivity. }
  assert (Hj3 : forall j, j <> i -> cell g3 j = cell g2 j).
  { intros j Hj. unfold cell. cbn [g3 with_chains board]. rewrite list_lookup_insert_ne by congruence. reflexivity. }
  assert (H3 : forall j k, j <> i -> cell g2 j = Some k -> exists grp grp', live g2 k = Some grp /\ live g3 k = Some grp' /\ g_color grp' = g_color grp).
  { intros j k Hj Ek. assert (Hku : k <> u) by (intros ->; apply Hj, Hone, Ek).
    destruct (wf0_cell g2 W2 j k Ek) as (grp & Hg). exists grp. unfold live at 2. cbn [g3 with_chains chains]. rewrite list_lookup_insert_ne by congruence.
    destruct (decide (k ∈ ks)) as [Hk|Hk]; [|rewrite A by exact Hk; exists grp; split; [exact Hg|]; split; [exact Hg|reflexivity]].
    destruct (B k grp Hk Hg) as (grp' & B1 & (B2 & _) & _). exists grp'. split; [exact Hg|]. split; [exact B1|congruence]. }
  split.
  - intros j k Hj. destruct (decide (j = i)) as [->|Nj]; [congruence|]. rewrite Hj3 in Hj by exact Nj.
    destruct (H3 j k Nj Hj) as (grp & grp' & _ & H & _). rewrite H. eauto.
  - intros j. destruct (decide (j = i)) as [->|Hj]; [unfold col; rewrite Hi3; reflexivity|].
    pose proof (la_col _ _ _ _ _ _ _ O j) as Hc. fold i in Hc. destruct (decide (j = i)); [contradiction|]. rewrite <- Hc.
    unfold col. rewrite Hj3 by exact Hj. destruct (cell g2 j) as [k|] eqn:Ek; [|reflexivity].
    destruct (H3 j k Hj Ek) as (grp & grp' & E1 & E2 & E3). rewrite E1, E2. congruence.
Qed.

(** * Games *)
Lemma get_color_at n g q : gsize g = (n, n) -> length (board g) = 361 -> (forall j k, cell g j = Some k -> is_Some (live g k)) ->
  idx n q < 361 -> get_color g q = Ok (col g (idx n q)).
Proof.
  intros Hs Hb Hl Hq. unfold get_color, get_color_idx. rewrite Hs, two_idx'.
  rewrite vget_board by lia. cbn [bind]. unfold col. destruct (cell g (idx n q)) as [k|] eqn:E; [|reflexivity].
  destruct (Hl _ _ E) as [grp Hg]. rewrite (chain_at_live _ _ _ Hg). cbn [bind]. rewrite Hg. reflexivity.
Qed.

Lemma clear_above_pos n g p : wf n g -> below n p -> clear_above n g p <-> forall q, on n q -> adj p q -> pos_of g q = None.
Proof.
  intros W Hp. unfold clear_above. split.
  - intros H q Hq Ha. apply (cell_pos n g q W Hq), H. apply (below_adj n p q Hp Hq), Ha.
  - intros H j Hj. pose proof (up_bound n p j Hp Hj) as Hl. pose proof (pt_on n j Hl) as Hq. rewrite <- (idx_pt n j Hl) in Hj |- *.
    apply (cell_pos n g _ W Hq), H; [exact Hq|]. apply (below_adj n p _ Hp Hq), Hj.
Qed.

Lemma above_opponents n g p c : wf n g -> below n p ->
  ((forall j, j ∈ up n p -> col g j = Some c) <-> forall q, on n q -> adj p q -> pos_of g q = Some c).
Proof.
  intros W Hp. split.
  - intros H q Hq Ha. rewrite (pos_of_col n g q W Hq). apply H. apply (below_adj n p q Hp Hq), Ha.
  - intros H j Hj. pose proof (up_bound n p j Hp Hj) as Hl. pose proof (pt_on n j Hl) as Hq. rewrite <- (idx_pt n j Hl) in Hj |- *.
    rewrite <- (pos_of_col n g _ W Hq). apply H; [exact Hq|]. apply (below_adj n p _ Hp Hq), Hj.
Qed.

Theorem play_below dbg n g p : lreach dbg n g -> below n p -> (N.of_nat (length (chains (gm_goban g))) < 65535)%N ->
  (dbg = true -> forall q, on n q -> adj p q -> position g q = None) ->
  exists g', play dbg g (MPlay (fst p) (snd p)) = Ok g' /\ gm_turn g' = opp (gm_turn g) /\ gm_ko_point g' = None /\ gm_passes g' = 0 /\
    (forall q, on n q -> get_color (gm_goban g') q = Ok (position g q)) /\
    (~ swallowed n g p -> get_color (gm_goban g') p = Ok (Some (gm_turn g)) /\ gm_prisoners g' = gm_prisoners g) /\
    (swallowed n g p -> get_color (gm_goban g') p = Ok None /\
       gm_prisoners g' = match gm_turn g with White => (fst (gm_prisoners g) + 1, snd (gm_prisoners g)) | Black => (fst (gm_prisoners g), snd (gm_prisoners g) + 1) end%N).
Proof.
  intros H Hp Hlen Hdb. pose proof (claim_breathe dbg n g H) as A. destruct (lreach_greach dbg n g H) as (b & w & G).
  pose proof (greach_inv dbg n b w g G) as I. pose proof (gi_wf _ _ _ _ I) as W.
  pose proof (wf_n _ _ W) as Hn. pose proof (sq_le n Hn) as Hsq. pose proof (below_idx n p Hp) as Hi.
  assert (Hdb' : dbg = true -> clear_above n (gm_goban g) p) by (intros Ed; apply (clear_above_pos n _ p W Hp), Hdb, Ed).
  destruct (below_push dbg n (gm_goban g) p (gm_turn g) W (alive_breathe n _ W A) Hp Hdb' Hlen) as (g2 & u & grpu & E & O).
  assert (Hoff : forall q, on n q -> idx n q <> idx n p) by (intros q Hq; pose proof (idx_on n q Hq); lia).
  pose proof (gi_pris _ _ _ _ I) as Hpr. destruct (gm_prisoners g) as [pb pw] eqn:Epr. unfold rem_total in Hpr. cbn [fst snd] in Hpr |- *.
  pose proof (dslots_le (gm_goban g)) as Hds.
  unfold play. destruct (history_insert_spec n (gm_history g) (gm_goban g) (gi_hist _ _ _ _ I) W) as (h & Eh & _ & _). rewrite Eh. cbn [bind].
  rewrite <- (surjective_pairing p), E. cbn [bind]. unfold game_remove_captured_stones, remove_captured_stones_aux. cbn [foldM bind length Nat.eqb].
  rewrite (chain_at_live _ _ _ (la_live _ _ _ _ _ _ _ O)). cbn [bind].
  destruct (negb (flag_contains (flag_illegal (gm_rule g)) SUICIDE) && is_dead grpu) eqn:Ed.
  - apply andb_true_iff in Ed as [E1 E2].
    assert (S : swallowed n g p).
    { split; [apply negb_true_iff, E1|]. apply (above_opponents n (gm_goban g) p _ W Hp). apply (la_dead _ _ _ _ _ _ _ O), E2. }
    destruct (below_remove dbg n (gm_goban g) _ _ g2 u grpu W Hp O E2) as (Hnum & g3 & Er & Es & Eb & El & Ec).
    rewrite Er. cbn [bind]. rewrite Hnum, (la_color _ _ _ _ _ _ _ O).
    assert (Hs3 : gsize g3 = (n, n)) by (rewrite Es; apply (wf_size _ _ W)).
    assert (Hc3 : (forall q, on n q -> get_color g3 q = Ok (position g q)) /\ get_color g3 p = Ok None).
    { split.
      - intros q Hq. pose proof (idx_on n q Hq). rewrite (get_color_at n g3 q Hs3 Eb El) by lia. rewrite Ec. destruct (decide _) as [X|_]; [destruct (Hoff q Hq X)|].
        unfold position. rewrite (pos_of_col n _ q W Hq). reflexivity.
      - rewrite (get_color_at n g3 p Hs3 Eb El) by lia. rewrite Ec. destruct (decide _); [reflexivity|contradiction]. }
    rewrite Epr; cbn [fst snd]; destruct (gm_turn g) eqn:Et; rewrite !u32_add_ok by (cbn; lia); cbn [bind]; eexists; (split; [reflexivity|]);
      cbn [gm_goban gm_turn gm_prisoners gm_ko_point gm_passes]; (split; [reflexivity|]); (split; [reflexivity|]); (split; [reflexivity|]);
      (split; [apply Hc3|]); (split; [tauto|]); intros HS; (split; [apply Hc3|]); cbn; f_equal; lia.
  - assert (NS : ~ swallowed n g p).
    { intros [S1 S2]. rewrite S1 in Ed. cbn in Ed. pose proof (proj2 (la_dead _ _ _ _ _ _ _ O) (proj2 (above_opponents n (gm_goban g) p _ W Hp) S2)). congruence. }
    rewrite Epr. cbn [bind fst snd]. rewrite !u32_add_ok by lia. cbn [bind]. eexists. split; [reflexivity|]. cbn [gm_goban gm_turn gm_prisoners gm_ko_point gm_passes].
    pose proof (la_wf _ _ _ _ _ _ _ O) as W2. assert (Hs2 : gsize g2 = (n, n)) by (rewrite (la_size _ _ _ _ _ _ _ O); apply (wf_size _ _ W)).
    split; [reflexivity|]. split; [reflexivity|]. split; [reflexivity|]. split; [|split; [|tauto]].
    + intros q Hq. pose proof (idx_on n q Hq). rewrite (get_color_at n g2 q Hs2 (wf0_board _ W2) (wf0_cell _ W2)) by lia.
      rewrite (la_col _ _ _ _ _ _ _ O). destruct (decide _) as [X|_]; [destruct (Hoff q Hq X)|]. unfold position. rewrite (pos_of_col n _ q W Hq). reflexivity.
    + intros _. rewrite !N.add_0_r. split; [|reflexivity]. rewrite (get_color_at n g2 p Hs2 (wf0_board _ W2) (wf0_cell _ W2)) by lia.
      rewrite (la_col _ _ _ _ _ _ _ O). destruct (decide _); [reflexivity|contradiction].
Qed.

Theorem play_below_panics n g p : lreach true n g -> below n p -> (exists q, on n q /\ adj p q /\ position g q <> None) ->
  play true g (MPlay (fst p) (snd p)) = Panic.
Proof.
  intros H Hp (q & Hq & Ha & Ho). destruct (lreach_greach true n g H) as (b & w & G).
  pose proof (greach_inv true n b w g G) as I. pose proof (gi_wf _ _ _ _ I) as W.
  unfold play. destruct (history_insert_spec n (gm_history g) (gm_goban g) (gi_hist _ _ _ _ I) W) as (h & Eh & _ & _). rewrite Eh. cbn [bind].
  rewrite <- (surjective_pairing p), (below_panics n (gm_goban g) p (gm_turn g) W Hp); [reflexivity|].
  intros X. apply Ho. apply (proj1 (clear_above_pos n _ p W Hp) X q Hq Ha).
Qed.

Lemma home_idx n x y : 1 <= n -> idx n (home n x y) = x * n + y /\ snd (home n x y) < n.
Proof.
  intros Hn. unfold home, idx. cbn [fst snd]. split; [|apply Nat.mod_upper_bound; lia].
  rewrite (Nat.mul_comm (_ / n)). symmetry. apply Nat.div_mod. lia.
Qed.

Lemma near_dec n g p : (forall q, on n q -> adj p q -> position g q = None) \/ exists q, on n q /\ adj p q /\ position g q <> None.
Proof.
  destruct (decide (Exists (fun q => adj p q /\ position g q <> None) (points n))) as [D|D].
  - right. apply Exists_exists in D as (q & D1 & D2 & D3). exists q. split; [apply elem_of_points, D1|auto].
  - left. intros q Hq Ha. destruct (position g q) eqn:Eq; [|reflexivity]. destruct D. apply Exists_exists. exists q.
    split; [apply elem_of_points, Hq|]. split; [exact Ha|congruence].
Qed.

Theorem play_total dbg n g x y : lreach dbg n g -> 2 <= n -> (N.of_nat (length (chains (gm_goban g))) < 65535)%N ->
  (playable dbg n g x y -> exists g', play dbg g (MPlay x y) = Ok g') /\ (~ playable dbg n g x y -> play dbg g (MPlay x y) = Panic).
Proof.
  intros H Hn2 Hlen. destruct (lreach_greach dbg n g H) as (b & w & G).
  pose proof (greach_inv dbg n b w g G) as I. pose proof (gi_wf _ _ _ _ I) as W. pose proof (wf_n _ _ W) as Hn.
  destruct (home_idx n x y ltac:(lia)) as [Hh1 Hh2].
  destruct (decide (x * n + y < 361)) as [Hl|Hl]; [|split; [intros [X _]; contradiction|intros _; apply (play_far dbg n b w g x y I); lia]].
  unfold playable. set (p := home n x y) in *.
  rewrite (play_alias dbg n b w g x y (fst p) (snd p) I) by (symmetry; exact Hh1).
  destruct (decide (fst p < n)) as [Hf|Hf].
  - assert (Hp : on n p) by (split; assumption). destruct (position g p) as [c|] eqn:Ep.
    + assert (Ho : position g p <> None) by congruence. rewrite (surjective_pairing p) in Hp, Ho. destruct dbg.
      * destruct (play_over_debug n g (fst p) (snd p) H Hp Ho Hlen) as [X Y]. rewrite <- surjective_pairing in X, Y.
        pose proof (near_dec n g p) as Hdec.
        split.
        { intros [_ [[_ Z]|Z]]; [reflexivity|congruence|]. destruct (X Z) as (g' & Eg & _). eauto. }
        { intros Hnp. destruct Hdec as [D|D]; [|apply (Y D)]. exfalso. apply Hnp. split; [exact Hl|]. intros _. right. exact D. }
      * destruct (play_over_release n g (fst p) (snd p) H Hp Ho Hlen) as (g' & E & _). split; [eauto|]. intros Hnp. exfalso. apply Hnp. split; [exact Hl|discriminate].
    + split; [|intros Hnp; exfalso; apply Hnp; split; [exact Hl|]; intros _; left; auto]. intros _. rewrite (surjective_pairing p) in Hp, Ep.
      destruct (play_spec dbg n b w g (fst p) (snd p) I Hp Ep) as [(_ & X & _)|(g' & E & _)]; [rewrite X in Hlen; lia|eauto].
  - assert (Hb : below n p).
    { split; [split; [lia|]|split; [exact Hh2|]].
      - unfold p, home. cbn [fst]. pose proof (Nat.div_le_mono (x * n + y) 361 n ltac:(lia) ltac:(lia)). pose proof (Nat.div_le_compat_l 361 2 n ltac:(lia)).
        change (361 / 2) with 180 in *. lia.
      - unfold idx in Hh1. rewrite Hh1. exact Hl. }
    destruct dbg.
    + pose proof (near_dec n g p) as Hdec.
      split.
      * intros [_ [[[Z _] _]|Z]]; [reflexivity|contradiction|]. destruct (play_below true n g p H Hb Hlen (fun _ => Z)) as (g' & E & _). eauto.
      * intros Hnp. destruct Hdec as [D|D]; [|apply (play_below_panics n g p H Hb D)]. exfalso. apply Hnp. split; [exact Hl|]. intros _. right. exact D.
    + destruct (play_below false n g p H Hb Hlen ltac:(discriminate)) as (g' & E & _). split; [eauto|]. intros Hnp. exfalso. apply Hnp. split; [exact Hl|discriminate].
Qed.
