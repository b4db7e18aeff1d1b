(** The capture loop [remove_captured_stones_aux]. *)
From stdpp Require Import relations.
From Verif Require Import Spec Goban BitsetFacts CoordFacts Struct Push Inv Remove.
From Coq Require Import Lia.

Lemma filter_ext_in {A} (P Q : A -> Prop) `{!forall x, Decision (P x), !forall x, Decision (Q x)} (l : list A) :
  (forall x, x ∈ l -> P x <-> Q x) -> filter P l = filter Q l.
Proof.
  induction l as [|x l IH]; intros HPQ; [reflexivity|]. rewrite !filter_cons.
  rewrite IH by (intros y Hy; apply HPQ; right; exact Hy).
  assert (Hx : P x <-> Q x) by (apply HPQ; left).
  destruct (decide (P x)), (decide (Q x)); tauto || reflexivity.
Qed.

(** number of indices carrying a colour *)
Definition icount (n : nat) (f : nat -> option color) (c : color) : nat :=
  length (filter (fun j => f j = Some c) (seq 0 (n * n))).

Lemma icount_ext n f f' c : (forall j, (j < n * n)%nat -> f j = f' j) -> icount n f c = icount n f' c.
Proof.
  intros H. unfold icount. f_equal. apply filter_ext_in. intros j Hj.
  apply elem_of_seq in Hj. rewrite H by lia. reflexivity.
Qed.

Lemma icount_clear n (f f' : nat -> option color) (l : list nat) c x :
  NoDup l -> (forall j, j ∈ l -> (j < n * n)%nat /\ f j = Some c) ->
  (forall j, f' j = if decide (j ∈ l) then None else f j) ->
  icount n f x = (icount n f' x + (if decide (x = c) then length l else 0))%nat.
Proof.
  intros Hnd Hl Hf'. unfold icount. destruct (decide (x = c)) as [->|Hx].
  - rewrite <- app_length. apply Permutation_length, NoDup_Permutation.
    + apply NoDup_filter, NoDup_ListNoDup, seq_NoDup.
    + apply NoDup_app. split; [apply NoDup_filter, NoDup_ListNoDup, seq_NoDup|]. split; [|exact Hnd].
      intros j Hj Hj'. apply elem_of_list_filter in Hj as [Hj _]. rewrite Hf' in Hj.
      destruct (decide (j ∈ l)); [discriminate|contradiction].
    + intros j. rewrite elem_of_app, !elem_of_list_filter, elem_of_seq, Hf'. split.
      * intros [H1 H2]. destruct (decide (j ∈ l)); tauto.
      * intros [[H1 H2]|H]; [|destruct (Hl j H); split; [assumption|lia]].
        destruct (decide (j ∈ l)); [discriminate|tauto].
  - rewrite Nat.add_0_r. f_equal. apply filter_ext_in. intros j _. rewrite Hf'.
    destruct (decide (j ∈ l)) as [D|D]; [|tauto]. destruct (Hl j D) as [_ H]. rewrite H. intuition congruence.
Qed.

Definition rem_of (r : N * N) (x : color) : N :=
  match x with White => fst r | Black => snd r end.

(** a group's stone count is the number of its points *)
Lemma group_points n g k grp : wf n g -> live g k = Some grp ->
  exists l, NoDup l /\ length l = g_num_stones grp /\ (forall j, j ∈ l <-> cell g j = Some k) /\
            head l = Some (g_origin grp).
Proof.
  intros W Hk. destruct (wf0_chain g (wf_0 n g W) k grp Hk) as [_ (l & R & Hm)].
  exists l. destruct R. tauto.
Qed.

Lemma remove_count n g g' k grp x :
  wf n g -> live g k = Some grp ->
  (forall j, col g' j = if decide (cell g j = Some k) then None else col g j) ->
  icount n (col g) x = (icount n (col g') x + (if decide (x = g_color grp) then g_num_stones grp else 0))%nat.
Proof.
  intros W Hk Hc. destruct (group_points n g k grp W Hk) as (l & Hnd & HL & Hm & _).
  rewrite (icount_clear n (col g) (col g') l (g_color grp) x Hnd).
  - rewrite HL. reflexivity.
  - intros j Hj. apply Hm in Hj. split; [eapply wf_on; eassumption|]. unfold col. rewrite Hj, Hk. reflexivity.
  - intros j. rewrite Hc. destruct (decide (cell g j = Some k)) as [D|D]; destruct (decide (j ∈ l)) as [D'|D'];
      try reflexivity; rewrite Hm in D'; contradiction.
Qed.

(** slots of the group vector that hold no group any more *)
Definition dslots (g : goban) : nat :=
  length (filter (fun k => live g k = None) (seq 0 (length (chains g)))).

Lemma dslots_le g : (dslots g <= length (chains g))%nat.
Proof. unfold dslots. etransitivity; [apply filter_length|]. rewrite seq_length. lia. Qed.

Lemma dslots_mono g g' :
  (length (chains g) <= length (chains g'))%nat ->
  (forall k, (k < length (chains g))%nat -> live g k = None -> live g' k = None) ->
  (dslots g <= dslots g')%nat.
Proof.
  intros L H. apply submseteq_length, NoDup_submseteq.
  - apply NoDup_filter, NoDup_ListNoDup, seq_NoDup.
  - intros k Hk. apply elem_of_list_filter in Hk as [H1 H2]. apply elem_of_seq in H2.
    apply elem_of_list_filter. split; [apply H; [lia|exact H1]|]. apply elem_of_seq. lia.
Qed.

Lemma dslots_remove g g' k grp :
  length (chains g) = length (chains g') -> live g k = Some grp -> live g' k = None ->
  (forall k, live g k = None -> live g' k = None) ->
  (S (dslots g) <= dslots g')%nat.
Proof.
  intros L Hk Hk' H. unfold dslots.
  change (S (length ?l)) with (length (k :: l)). apply submseteq_length, NoDup_submseteq.
  - apply NoDup_cons. split; [|apply NoDup_filter, NoDup_ListNoDup, seq_NoDup].
    intros Hx. apply elem_of_list_filter in Hx as [Hx _]. congruence.
  - intros x Hx. apply elem_of_list_filter. apply elem_of_cons in Hx as [->|Hx].
    + split; [exact Hk'|]. apply live_lt in Hk. apply elem_of_seq. lia.
    + apply elem_of_list_filter in Hx as [H1 H2]. apply elem_of_seq in H2. split; [apply H, H1|].
      apply elem_of_seq. lia.
Qed.

Lemma group_le n g k grp : wf n g -> live g k = Some grp -> (g_num_stones grp <= 361)%nat.
Proof.
  intros W Hk. destruct (group_points n g k grp W Hk) as (l & Hnd & <- & Hm & _).
  apply NoDup_bounded; [exact Hnd|]. intros i Hi. apply Hm in Hi. pose proof (wf_on n g W i k Hi).
  pose proof (sq_le n (wf_n n g W)). lia.
Qed.

Definition rem_total (r : N * N) : N := (fst r + snd r)%N.

Lemma captured_loop dbg n only c dead :
  forall g removed ko,
  wf n g -> NoDup dead ->
  (forall k, k ∈ dead -> exists grp, live g k = Some grp /\ g_color grp = c) ->
  exists g1 removed' ko',
    foldM (fun '(g, removed, ko) d =>
             let! dead := chain_at (chains g) d in
             let! ko' :=
               (if (g_num_stones dead =? 1)%nat && only then
                  let! q := one_to_2dim (gsize g) (g_origin dead) in Ok (Some q)
                else Ok ko) in
             let num := N.of_nat (g_num_stones dead) in
             let removed' :=
               match g_color dead with
               | White => (fst removed + num, snd removed)%N
               | Black => (fst removed, snd removed + num)%N
               end in
             let! g' := remove_chain dbg g d in
             Ok (g', removed', ko')) dead (g, removed, ko) = Ok (g1, removed', ko') /\
    wf n g1 /\ length (chains g1) = length (chains g) /\
    (forall j, cell g1 j = if decide (cell g j ∈ (Some <$> dead)) then None else cell g j) /\
    (forall j, col g1 j = if decide (cell g j ∈ (Some <$> dead)) then None else col g j) /\
    (forall k, live g k = None -> live g1 k = None) /\
    (forall k, k ∈ dead -> live g1 k = None) /\
    (forall k grp, k ∉ dead -> live g k = Some grp -> exists grp', live g1 k = Some grp' /\ same_shape grp grp') /\
    (forall x, rem_of removed' x + N.of_nat (icount n (col g1) x) =
               rem_of removed x + N.of_nat (icount n (col g) x))%N /\
    (forall x, x <> c -> rem_of removed' x = rem_of removed x) /\
    (rem_total removed' + 361 * N.of_nat (dslots g) <= rem_total removed + 361 * N.of_nat (dslots g1))%N /\
    (only = false -> ko' = ko) /\
    (forall d grp, only = true -> dead = [d] -> live g d = Some grp ->
       ko' = if (g_num_stones grp =? 1)%nat then Some (g_origin grp / n, g_origin grp mod n)%nat else ko) /\
    (dead = [] -> ko' = ko).
Proof.
  induction dead as [|d dead IH]; intros g removed ko W Hnd Hd.
  - exists g, removed, ko. cbn. split; [reflexivity|]. split; [exact W|]. split; [reflexivity|].
    split; [intros j; destruct (decide (cell g j ∈ [])) as [D|D]; [apply elem_of_nil in D; destruct D|reflexivity]|].
    split; [intros j; destruct (decide (cell g j ∈ [])) as [D|D]; [apply elem_of_nil in D; destruct D|reflexivity]|].
    split; [tauto|]. split; [intros k H; apply elem_of_nil in H; destruct H|].
    split; [intros k grp _ H; exists grp; split; [exact H|repeat split]|].
    repeat split; [lia|discriminate].
  - apply NoDup_cons in Hnd as [Hdn Hnd]. cbn [foldM].
    destruct (Hd d) as (grp & Hg & Hcol); [left|].
    pose proof (wf_n n g W) as Hn. pose proof (live_stone n g d grp W Hg) as Ho.
    assert (Hon : (g_origin grp < n * n)%nat) by (eapply wf_on; eassumption).
    rewrite (chain_at_live _ _ _ Hg). cbn [bind].
    rewrite (wf_size n g W), one_to_2dim_sq by assumption. cbn [bind].
    set (ko1 := if (g_num_stones grp =? 1)%nat && only then Some (g_origin grp / n, g_origin grp mod n)%nat else ko).
    match goal with |- context [if ?b then Ok ?X else Ok ko] =>
      replace (if b then Ok X else Ok ko) with (Ok ko1)
        by (unfold ko1; destruct ((g_num_stones grp =? 1)%nat && only); reflexivity) end.
    cbn [bind].
    destruct (remove_chain_spec dbg n g d grp W Hg) as (g0 & E0 & W0 & L0 & C0 & Col0 & K0 & N0 & V0).
    rewrite E0. cbn [bind].
    set (r1 := match g_color grp with
               | White => (fst removed + N.of_nat (g_num_stones grp), snd removed)%N
               | Black => (fst removed, snd removed + N.of_nat (g_num_stones grp))%N end).
    destruct (IH g0 r1 ko1 W0 Hnd) as (g1 & r' & ko' & E1 & W1 & L1 & C1 & Col1 & N1 & D1 & V1 & R1 & R2 & R3 & K1 & K2 & K3).
    { intros k Hk. destruct (Hd k) as (gk & Hgk & Hck); [right; exact Hk|].
      destruct (V0 k gk) as (gk' & Hgk' & (Hsh & _)); [intros ->; contradiction|exact Hgk|]. exists gk'. split; [exact Hgk'|congruence]. }
    exists g1, r', ko'. split; [exact E1|]. split; [exact W1|]. split; [congruence|].
    assert (Hdec : forall j, (cell g0 j ∈ (Some <$> dead) \/ cell g j = Some d) <-> cell g j ∈ (Some <$> (d :: dead))).
    { intros j. rewrite fmap_cons, elem_of_cons, C0. destruct (decide (cell g j = Some d)) as [D|D]; [tauto|].
      tauto. }
    split; [|split; [|split; [|split; [|split; [|split; [|split; [|split; [|split; [|split]]]]]]]]].
    + intros j. rewrite C1. destruct (decide (cell g j ∈ Some <$> d :: dead)) as [D|D];
        rewrite <- Hdec in D; destruct (decide (cell g0 j ∈ Some <$> dead)) as [D'|D']; try tauto.
      * rewrite C0. destruct (decide (cell g j = Some d)); tauto.
      * rewrite C0. destruct (decide (cell g j = Some d)); tauto.
    + intros j. rewrite Col1. destruct (decide (cell g j ∈ Some <$> d :: dead)) as [D|D];
        rewrite <- Hdec in D; destruct (decide (cell g0 j ∈ Some <$> dead)) as [D'|D']; try tauto.
      * rewrite Col0. destruct (decide (cell g j = Some d)); tauto.
      * rewrite Col0. destruct (decide (cell g j = Some d)); tauto.
    + intros k Hk. apply N1, N0, Hk.
    + intros k Hk. apply elem_of_cons in Hk as [->|Hk]; [apply N1, K0|apply D1, Hk].
    + intros k gk Hk Hgk. apply not_elem_of_cons in Hk as [H1 H2]. destruct (V0 k gk H1 Hgk) as (gk0 & Hgk0 & S0).
      destruct (V1 k gk0 H2 Hgk0) as (gk1 & Hgk1 & S1). exists gk1. split; [exact Hgk1|].
      destruct S0 as (?&?&?&?), S1 as (?&?&?&?). repeat split; congruence.
    + intros x. rewrite R1. rewrite (remove_count n g g0 d grp x W Hg Col0).
      unfold r1, rem_of. destruct x, (g_color grp); cbn [decide]; repeat destruct (decide _); try congruence; cbn [fst snd]; lia.
    + intros x Hx. rewrite R2 by exact Hx. unfold r1, rem_of. destruct x, (g_color grp); try reflexivity; congruence.
    + pose proof (dslots_remove g g0 d grp (eq_sym L0) Hg K0 N0) as Hds. pose proof (group_le n g d grp W Hg) as Hle.
      assert (Hr1 : rem_total r1 = (rem_total removed + N.of_nat (g_num_stones grp))%N).
      { unfold r1, rem_total. destruct (g_color grp); cbn [fst snd]; lia. }
      lia.
    + intros Hf. rewrite K1 by exact Hf. unfold ko1. rewrite Hf, andb_false_r. reflexivity.
    + intros d' gd Ht Hds Hgd. injection Hds as -> ->. rewrite (K3 eq_refl). unfold ko1.
      assert (gd = grp) by congruence. subst gd. rewrite Ht, andb_true_r. reflexivity.
    + discriminate.
Qed.

Theorem captured_spec dbg n g suicide dead u grpu c :
  wf n g -> NoDup dead -> live g u = Some grpu -> g_color grpu = c ->
  (forall k, k ∈ dead -> exists grp, live g k = Some grp /\ g_color grp = opp c) ->
  exists g1 grp1 g' removed ko,
    remove_captured_stones_aux dbg g suicide dead u = Ok (g', removed, ko) /\
    wf n g1 /\ wf n g' /\ length (chains g') = length (chains g) /\
    (forall j, cell g1 j = if decide (cell g j ∈ (Some <$> dead)) then None else cell g j) /\
    (forall j, col g1 j = if decide (cell g j ∈ (Some <$> dead)) then None else col g j) /\
    live g1 u = Some grp1 /\ same_shape grpu grp1 /\
    (forall j, col g' j = if decide (suicide = true /\ is_dead grp1 = true /\ cell g j = Some u) then None
                          else col g1 j) /\
    (forall x, rem_of removed x + N.of_nat (icount n (col g') x) = N.of_nat (icount n (col g) x))%N /\
    (rem_total removed + 361 * N.of_nat (dslots g) <= 361 * N.of_nat (dslots g'))%N /\
    (rem_of removed (opp c) + N.of_nat (icount n (col g1) (opp c)) = N.of_nat (icount n (col g) (opp c)))%N /\
    ko = match dead with
         | [d] => match live g d with
                  | Some grp => if (g_num_stones grp =? 1)%nat && negb (suicide && is_dead grp1)
                                then Some (g_origin grp / n, g_origin grp mod n)%nat else None
                  | None => None
                  end
         | _ => None
         end.
Proof.
  intros W Hnd Hu Hc Hd.
  assert (Hud : u ∉ dead).
  { intros H. destruct (Hd u H) as (gx & Hx & Hcx). destruct (opp_ne c). congruence. }
  unfold remove_captured_stones_aux.
  destruct (captured_loop dbg n (length dead =? 1)%nat (opp c) dead g (0%N, 0%N) None W Hnd Hd)
    as (g1 & r1 & ko1 & E1 & W1 & L1 & C1 & Col1 & N1 & D1 & V1 & R1 & R2 & R3 & K1 & K2 & K3).
  match goal with |- context [foldM ?F dead ?s] => replace (foldM F dead s) with (Ok (g1, r1, ko1)) by (symmetry; exact E1) end.
  cbn [bind]. destruct (V1 u grpu Hud Hu) as (grp1 & Hg1 & Hsh). rewrite (chain_at_live _ _ _ Hg1). cbn [bind].
  assert (Hko1 : ko1 = match dead with
         | [d] => match live g d with
                  | Some grp => if (g_num_stones grp =? 1)%nat
                                then Some (g_origin grp / n, g_origin grp mod n)%nat else None
                  | None => None
                  end
         | _ => None
         end).
  { destruct dead as [|d [|d2 ds]].
    - apply K1. reflexivity.
    - destruct (Hd d) as (gd & Hgd & _); [left|]. rewrite Hgd. apply (K2 d gd eq_refl eq_refl Hgd).
    - apply K1. reflexivity. }
  assert (Hcell_u : forall j, cell g1 j = Some u <-> cell g j = Some u).
  { intros j. rewrite C1. destruct (decide (cell g j ∈ Some <$> dead)) as [D|D]; [|tauto]. split; [discriminate|].
    intros H. rewrite H in D. apply list_In_mapsome in D. contradiction. }
  destruct (suicide && is_dead grp1) eqn:Es.
  - destruct (remove_chain_spec dbg n g1 u grp1 W1 Hg1) as (g2 & E2 & W2 & L2 & C2 & Col2 & K2' & N2 & _).
    rewrite E2. cbn [bind]. eexists g1, grp1, g2, _, None. split; [reflexivity|].
    split; [exact W1|]. split; [exact W2|]. split; [congruence|]. split; [exact C1|]. split; [exact Col1|].
    split; [exact Hg1|]. split; [exact Hsh|].
    apply andb_true_iff in Es as [Es1 Es2].
    split.
    { intros j. rewrite Col2. destruct (decide (cell g1 j = Some u)) as [D|D];
        rewrite Hcell_u in D; destruct (decide (suicide = true /\ is_dead grp1 = true /\ cell g j = Some u)); tauto. }
    assert (Hcolg : g_color grp1 = c) by (destruct Hsh; congruence).
    split.
    { intros x. specialize (R1 x). rewrite (remove_count n g1 g2 u grp1 x W1 Hg1 Col2) in R1.
      unfold rem_of in *. destruct x, (g_color grp1); repeat destruct (decide _); try congruence; cbn [fst snd] in *; lia. }
    split.
    { pose proof (dslots_remove g1 g2 u grp1 (eq_sym L2) Hg1 K2' N2). pose proof (group_le n g1 u grp1 W1 Hg1).
      unfold rem_total in *. destruct (g_color grp1); cbn [fst snd] in *; lia. }
    split.
    { specialize (R1 (opp c)). rewrite Hcolg. destruct c; cbn [opp rem_of fst snd] in *; lia. }
    destruct dead as [|d [|]]; try reflexivity. destruct (live g d); [|reflexivity].
    rewrite Es1, Es2, andb_false_r. reflexivity.
  - eexists g1, grp1, g1, r1, ko1. split; [reflexivity|].
    split; [exact W1|]. split; [exact W1|]. split; [congruence|]. split; [exact C1|]. split; [exact Col1|].
    split; [exact Hg1|]. split; [exact Hsh|].
    split. { intros j. destruct (decide _) as [(D1' & D2 & _)|]; [|reflexivity]. rewrite D1', D2 in Es. discriminate. }
    split. { intros x. specialize (R1 x). destruct x; cbn in *; lia. }
    split. { unfold rem_total in *. cbn [fst snd] in *. lia. }
    split. { specialize (R1 (opp c)). destruct c; cbn in *; lia. }
    rewrite Hko1. destruct dead as [|d [|]]; try reflexivity. destruct (live g d); [|reflexivity].
    rewrite Es, andb_true_r. reflexivity.
Qed.
