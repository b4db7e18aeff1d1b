(** Facts about the liberty bitset, used by the proofs. *)
From Verif Require Import Bitset.
From Coq Require Import Lia Btauto.

(** Membership of an index. *)
Definition lbit (l : list N) (j : nat) : bool :=
  match l !! (j / 8)%nat with
  | Some x => N.testbit x (N.of_nat (j mod 8))
  | None => false
  end.

Lemma bits_ok_empty : bits_ok EMPTY_LIBERTIES.
Proof.
  split; [apply replicate_length|]. apply Forall_replicate. lia.
Qed.

Lemma lbit_empty j : lbit EMPTY_LIBERTIES j = false.
Proof.
  unfold lbit, EMPTY_LIBERTIES. destruct (_ !! _) eqn:E; [|reflexivity].
  apply lookup_replicate in E as [-> _]. apply N.bits_0.
Qed.

Lemma lbit_bound l j : bits_ok l -> lbit l j = true -> (j < 368)%nat.
Proof.
  intros [Hl _] H. unfold lbit in H. destruct (l !! _) eqn:E; [|discriminate].
  apply lookup_lt_Some in E. rewrite Hl in E.
  pose proof (Nat.div_mod j 8 ltac:(lia)). pose proof (Nat.mod_upper_bound j 8 ltac:(lia)). lia.
Qed.

Lemma chunk_bound j : (j < 368 -> j / 8 < 46)%nat.
Proof. intros H. apply Nat.div_lt_upper_bound; lia. Qed.

Lemma land_pow2 x b : (N.land x (N.shiftl 1 b) =? 0)%N = negb (N.testbit x b).
Proof.
  rewrite N.shiftl_1_l.
  destruct (N.testbit x b) eqn:E; cbn.
  - apply N.eqb_neq. intros H.
    assert (N.testbit (N.land x (2 ^ b)) b = true) as H1.
    { rewrite N.land_spec, E, N.pow2_bits_true. reflexivity. }
    rewrite H, N.bits_0 in H1. discriminate.
  - apply N.eqb_eq, N.bits_inj. intros i. rewrite N.land_spec, N.bits_0.
    rewrite N.pow2_bits_eqb. destruct (N.eqb_spec b i) as [<-|]; [rewrite E|]; btauto.
Qed.

Lemma lib_get_spec l j : bits_ok l -> (j < 368)%nat -> lib_get j l = Ok (lbit l j).
Proof.
  intros [Hl _] Hj. unfold lib_get, lbit, vget, BITS.
  destruct (lookup_lt_is_Some_2 l (j / 8)) as [x Hx]; [rewrite Hl; apply chunk_bound, Hj|].
  rewrite Hx. cbn [unwrap bind]. f_equal. rewrite land_pow2. apply negb_involutive.
Qed.

Lemma byte_lor x y : (x < 256 -> y < 256 -> N.lor x y < 256)%N.
Proof.
  intros Hx Hy. destruct (N.eq_dec (N.lor x y) 0) as [->|H0]; [lia|].
  change 256%N with (2 ^ 8)%N in *. apply N.log2_lt_pow2; [lia|].
  rewrite N.log2_lor. apply N.max_lub_lt.
  - destruct (N.eq_dec x 0) as [->|]; [reflexivity|]. apply N.log2_lt_pow2; lia.
  - destruct (N.eq_dec y 0) as [->|]; [reflexivity|]. apply N.log2_lt_pow2; lia.
Qed.

Lemma byte_land x y : (x < 256 -> N.land x y < 256)%N.
Proof.
  intros Hx. destruct (N.eq_dec (N.land x y) 0) as [->|H0]; [lia|].
  change 256%N with (2 ^ 8)%N in *. apply N.log2_lt_pow2; [lia|].
  eapply N.le_lt_trans; [apply N.log2_land|]. apply N.min_lt_iff. left.
  destruct (N.eq_dec x 0) as [->|]; [reflexivity|]. apply N.log2_lt_pow2; lia.
Qed.

Lemma byte_high x b : (x < 256)%N -> (8 <= b)%N -> N.testbit x b = false.
Proof.
  intros Hx Hb. destruct (N.eq_dec x 0) as [->|]; [apply N.bits_0|].
  apply N.bits_above_log2. change 256%N with (2 ^ 8)%N in *.
  apply N.log2_lt_pow2 in Hx; lia.
Qed.

Lemma idx_split i j : (i / 8 = j / 8 -> i mod 8 = j mod 8 -> i = j)%nat.
Proof.
  intros H1 H2. rewrite (Nat.div_mod i 8), (Nat.div_mod j 8) by lia. lia.
Qed.

Lemma lib_set_spec v l j :
  bits_ok l -> (j < 368)%nat ->
  exists l', lib_set v j l = Ok l' /\ bits_ok l' /\
    forall i, lbit l' i = if (i =? j)%nat then v else lbit l i.
Proof.
  intros [Hl Hf] Hj. unfold lib_set, vget, vset, BITS.
  pose proof (chunk_bound j Hj) as Hc.
  destruct (lookup_lt_is_Some_2 l (j / 8)) as [x Hx]; [lia|].
  rewrite Hx. cbn [unwrap bind]. rewrite Hl.
  destruct (Nat.ltb_spec (j / 8) 46); [|lia].
  assert (Hx256 : (x < 256)%N) by (exact (Forall_lookup_1 _ _ _ _ Hf Hx)).
  assert (Hm : (j mod 8 < 8)%nat) by (apply Nat.mod_upper_bound; lia).
  set (mask := N.shiftl 1 (N.of_nat (j mod 8))).
  assert (Hmask : (mask < 256)%N).
  { unfold mask. rewrite N.shiftl_1_l. change 256%N with (2 ^ 8)%N.
    apply N.pow_lt_mono_r; lia. }
  set (y := if v then N.lor x mask else N.land x (N.lnot mask 8)).
  assert (Hy : (y < 256)%N).
  { unfold y. destruct v; [apply byte_lor; assumption|apply byte_land; assumption]. }
  exists (<[(j / 8)%nat:=y]> l). split; [destruct v; reflexivity|].
  split.
  { split; [rewrite insert_length; exact Hl|]. apply Forall_insert; assumption. }
  intros i. unfold lbit.
  destruct (Nat.eq_dec (i / 8) (j / 8)) as [E|E].
  - rewrite E, list_lookup_insert by lia. rewrite Hx.
    assert (Hb : N.testbit y (N.of_nat (i mod 8)) =
                 if (i mod 8 =? j mod 8)%nat then v else N.testbit x (N.of_nat (i mod 8))).
    { assert (Hi8 : (i mod 8 < 8)%nat) by (apply Nat.mod_upper_bound; lia).
      unfold y, mask. destruct v.
      - rewrite N.lor_spec, N.shiftl_1_l, N.pow2_bits_eqb.
        destruct (Nat.eqb_spec (i mod 8) (j mod 8)) as [->|Hne].
        + rewrite N.eqb_refl. apply orb_true_r.
        + destruct (N.eqb_spec (N.of_nat (j mod 8)) (N.of_nat (i mod 8))); [lia|]. apply orb_false_r.
      - rewrite N.land_spec, N.lnot_spec_low by lia.
        rewrite N.shiftl_1_l, N.pow2_bits_eqb.
        destruct (Nat.eqb_spec (i mod 8) (j mod 8)) as [->|Hne].
        + rewrite N.eqb_refl. apply andb_false_r.
        + destruct (N.eqb_spec (N.of_nat (j mod 8)) (N.of_nat (i mod 8))); [lia|]. apply andb_true_r. }
    rewrite Hb.
    destruct (Nat.eqb_spec (i mod 8) (j mod 8)) as [E2|E2]; destruct (Nat.eqb_spec i j) as [E3|E3];
      try reflexivity; [destruct (E3 (idx_split _ _ E E2))|subst; congruence].
  - rewrite list_lookup_insert_ne by congruence.
    destruct (Nat.eqb_spec i j) as [->|]; [congruence|reflexivity].
Qed.

Lemma lib_set_all l js :
  bits_ok l -> Forall (fun j => (j < 368)%nat) js ->
  exists l', foldM (fun l i => lib_set true i l) js l = Ok l' /\ bits_ok l' /\
    forall i, lbit l' i = true <-> i ∈ js \/ lbit l i = true.
Proof.
  intros Hl Hjs. revert l Hl. induction Hjs as [|j js Hj _ IH]; intros l Hl.
  - exists l. cbn. split; [reflexivity|]. split; [exact Hl|].
    intros i. rewrite elem_of_nil. tauto.
  - destruct (lib_set_spec true l j Hl Hj) as (l1 & E1 & H1 & B1).
    destruct (IH l1 H1) as (l2 & E2 & H2 & B2).
    exists l2. cbn [foldM]. rewrite E1. cbn [bind]. split; [exact E2|]. split; [exact H2|].
    intros i. rewrite B2, B1, elem_of_cons.
    destruct (Nat.eqb_spec i j); intuition congruence.
Qed.

Lemma lib_merge_spec a b :
  bits_ok a -> bits_ok b ->
  bits_ok (lib_merge a b) /\ forall i, lbit (lib_merge a b) i = lbit a i || lbit b i.
Proof.
  intros [La Fa] [Lb Fb]. unfold lib_merge. split.
  - split; [rewrite zip_with_length; lia|].
    apply Forall_lookup. intros i x Hx. apply lookup_zip_with_Some in Hx as (u & v & -> & Hu & Hv).
    apply byte_lor; [exact (Forall_lookup_1 _ _ _ _ Fa Hu)|exact (Forall_lookup_1 _ _ _ _ Fb Hv)].
  - intros i. unfold lbit. rewrite lookup_zip_with.
    generalize (i / 8)%nat, (i mod 8)%nat. clear i. intros i m.
    destruct (a !! i) as [u|] eqn:Eu; cbn.
    + destruct (b !! i) as [v|] eqn:Ev; cbn.
      * apply N.lor_spec.
      * apply lookup_ge_None in Ev. apply lookup_lt_Some in Eu. lia.
    + destruct (b !! i) as [v|] eqn:Ev; cbn; [|reflexivity].
      apply lookup_ge_None in Eu. apply lookup_lt_Some in Ev. lia.
Qed.

Lemma lib_any_spec l : bits_ok l -> lib_any l = true <-> exists j, lbit l j = true.
Proof.
  intros [Hl Hf]. unfold lib_any. rewrite existsb_exists. split.
  - intros (x & Hin & Hx). apply elem_of_list_In, elem_of_list_lookup in Hin as [k Hk].
    assert (Hx8 : (x < 256)%N) by (exact (Forall_lookup_1 _ _ _ _ Hf Hk)).
    destruct (N.eqb_spec x 0); [discriminate|].
    assert (Hlog : N.testbit x (N.log2 x) = true) by (apply N.bit_log2; assumption).
    assert (N.log2 x < 8)%N by (apply N.log2_lt_pow2; [lia|exact Hx8]).
    exists (k * 8 + N.to_nat (N.log2 x))%nat. unfold lbit.
    assert (E1 : ((k * 8 + N.to_nat (N.log2 x)) / 8 = k)%nat).
    { symmetry. apply (Nat.div_unique _ 8 _ (N.to_nat (N.log2 x))); lia. }
    assert (E2 : ((k * 8 + N.to_nat (N.log2 x)) mod 8 = N.to_nat (N.log2 x))%nat).
    { symmetry. apply (Nat.mod_unique _ 8 k); lia. }
    rewrite E1, E2, Hk, N2Nat.id. exact Hlog.
  - intros (j & Hj). unfold lbit in Hj. destruct (l !! _) as [x|] eqn:E; [|discriminate].
    exists x. split; [apply elem_of_list_In; eapply elem_of_list_lookup_2; exact E|].
    destruct (N.eqb_spec x 0) as [->|]; [|reflexivity]. rewrite N.bits_0 in Hj. discriminate.
Qed.

(** The indices of a bitset, in ascending order. *)
Definition lib_list (l : list N) : list nat := List.filter (lbit l) (seq 0 368).

Lemma elem_of_lib_list l j : bits_ok l -> j ∈ lib_list l <-> lbit l j = true.
Proof.
  intros Hl. unfold lib_list. rewrite elem_of_list_In, List.filter_In, <- elem_of_list_In, elem_of_seq.
  split; [tauto|]. intros H. split; [|exact H]. pose proof (lbit_bound l j Hl H). lia.
Qed.

Lemma filter_ext_seq (f g : nat -> bool) a len :
  (forall i, (a <= i < a + len)%nat -> f i = g i) ->
  List.filter f (seq a len) = List.filter g (seq a len).
Proof.
  revert a. induction len as [|len IH]; intros a H; [reflexivity|]. cbn.
  rewrite (H a) by lia. rewrite (IH (S a)); [reflexivity|]. intros i Hi. apply H. lia.
Qed.

Lemma filter_seq_shift (f : nat -> bool) a k len :
  List.filter f (seq (k + a) len) = List.map (Nat.add k) (List.filter (fun i => f (k + i)%nat) (seq a len)).
Proof.
  revert a. induction len as [|len IH]; intros a; [reflexivity|]. cbn [seq List.filter].
  specialize (IH (S a)). rewrite Nat.add_succ_r in IH.
  destruct (f (k + a)%nat); cbn [List.map]; rewrite IH; reflexivity.
Qed.

Definition chunk_list (x : N) : list nat := List.filter (fun b => N.testbit x (N.of_nat b)) (seq 0 8).

Lemma lib_list_chunks (l : list N) :
  List.filter (fun j => match l !! (j / 8)%nat with
                        | Some x => N.testbit x (N.of_nat (j mod 8))
                        | None => false
                        end) (seq 0 (8 * length l)) =
  List.concat (imap (fun ix x => List.map (fun b => (b + 8 * ix)%nat) (chunk_list x)) l).
Proof.
  induction l as [|x l IH] using rev_ind; [reflexivity|].
  rewrite app_length. cbn [length]. replace (8 * (length l + 1))%nat with (8 * length l + 8)%nat by lia.
  rewrite seq_app, List.filter_app. rewrite imap_app, concat_app. f_equal.
  - rewrite <- IH. apply filter_ext_seq. intros i Hi.
    rewrite lookup_app_l; [reflexivity|]. apply Nat.div_lt_upper_bound; lia.
  - cbn [imap List.concat]. rewrite app_nil_r.
    replace (0 + 8 * length l)%nat with (8 * length l + 0)%nat by lia.
    rewrite filter_seq_shift. cbn [imap]. unfold chunk_list.
    unfold compose. replace (length l + 0)%nat with (length l) by lia.
    rewrite (filter_ext_seq _ (fun b => N.testbit x (N.of_nat b))).
    + cbn [List.concat]. rewrite ?app_nil_r. apply List.map_ext. intros b. lia.
    + intros i Hi.
      assert (E1 : ((8 * length l + i) / 8 = length l)%nat).
      { symmetry. apply (Nat.div_unique _ 8 _ i); lia. }
      assert (E2 : ((8 * length l + i) mod 8 = i)%nat).
      { symmetry. apply (Nat.mod_unique _ 8 (length l)); lia. }
      rewrite E1, E2, lookup_app_r by lia. rewrite Nat.sub_diag. reflexivity.
Qed.

Lemma lib_list_eq l : length l = 46%nat ->
  lib_list l = List.concat (imap (fun ix x => List.map (fun b => (b + 8 * ix)%nat) (chunk_list x)) l).
Proof.
  intros Hl. pose proof (lib_list_chunks l) as H. rewrite Hl in H. exact H.
Qed.

Lemma lib_count_ones_spec l : bits_ok l -> lib_count_ones l = length (lib_list l).
Proof.
  intros [Hl _]. rewrite lib_list_eq by exact Hl. unfold lib_count_ones. clear Hl.
  assert (H : forall (f : nat -> nat -> nat),
    sum_list_with count_ones_u8 l =
    length (List.concat (imap (fun ix x => List.map (f ix) (chunk_list x)) l))).
  { induction l as [|x l IH]; intros f; [reflexivity|].
    cbn [sum_list_with imap List.concat]. rewrite app_length, List.map_length.
    unfold count_ones_u8 at 1, chunk_list at 1. f_equal. apply (IH (fun ix => f (S ix))). }
  apply (H (fun ix b => b + 8 * ix)%nat).
Qed.

(** Enumeration of one chunk: a check of the 256 byte values. *)
Definition chunk_ok (x : N) : bool :=
  match iter_ones_chunk 9 x 0 0 [] with
  | Ok l => bool_decide (l = chunk_list x)
  | _ => false
  end.

Lemma chunk_all_ok : forallb (fun k => chunk_ok (N.of_nat k)) (seq 0 256) = true.
Proof. vm_compute. reflexivity. Qed.

Lemma iter_ones_chunk_shift fuel x index ix acc :
  iter_ones_chunk fuel x index ix (List.map (fun b => (b + 8 * ix)%nat) acc) =
  let! l := iter_ones_chunk fuel x index 0 acc in Ok (List.map (fun b => (b + 8 * ix)%nat) l).
Proof.
  revert x index acc. induction fuel as [|f IH]; intros x index acc; [reflexivity|].
  cbn [iter_ones_chunk]. destruct (x =? 0)%N; [reflexivity|].
  unfold av_push. rewrite List.map_length. destruct (length acc <? BITS)%nat; [|reflexivity].
  cbn [bind]. rewrite <- IH. f_equal. rewrite List.map_app. cbn [List.map]. do 2 f_equal. unfold BITS. lia.
Qed.

Lemma iter_ones_chunk_spec x ix : (x < 256)%N ->
  iter_ones_chunk 9 x 0 ix [] = Ok (List.map (fun b => (b + 8 * ix)%nat) (chunk_list x)).
Proof.
  intros Hx. change (@nil nat) with (List.map (fun b => (b + 8 * ix)%nat) []) at 1.
  rewrite iter_ones_chunk_shift.
  pose proof chunk_all_ok as H. rewrite forallb_forall in H.
  specialize (H (N.to_nat x)). rewrite N2Nat.id in H. unfold chunk_ok in H.
  destruct (iter_ones_chunk 9 x 0 0 []) as [l| |].
  - cbn [bind]. do 2 f_equal. eapply bool_decide_eq_true_1, H.
    apply in_seq. lia.
  - exfalso. assert (false = true); [|discriminate]. apply H, in_seq. lia.
  - exfalso. assert (false = true); [|discriminate]. apply H, in_seq. lia.
Qed.

Lemma lib_iter_ones_spec l : bits_ok l -> lib_iter_ones l = Ok (lib_list l).
Proof.
  intros [Hl Hf]. rewrite lib_list_eq by exact Hl. unfold lib_iter_ones. clear Hl.
  assert (H : forall k, iter_ones_from k l =
    Ok (List.concat (imap (fun ix x => List.map (fun b => (b + 8 * (k + ix))%nat) (chunk_list x)) l))).
  { induction Hf as [|x l Hx _ IH]; intros k; [reflexivity|].
    cbn [iter_ones_from imap List.concat]. rewrite iter_ones_chunk_spec by exact Hx. cbn [bind].
    rewrite IH. cbn [bind]. f_equal. rewrite Nat.add_0_r. f_equal. f_equal.
    apply imap_ext. intros i y _. apply List.map_ext. intros b. unfold compose. lia. }
  apply H.
Qed.

(** Group-level consequences. *)
Lemma is_dead_spec g : bits_ok (g_liberties g) ->
  is_dead g = true <-> forall j, lbit (g_liberties g) j = false.
Proof.
  intros Hb. unfold is_dead. rewrite negb_true_iff.
  pose proof (lib_any_spec _ Hb) as H. split.
  - intros E j. destruct (lbit _ j) eqn:Ej; [|reflexivity].
    rewrite E in H. symmetry. apply H. eauto.
  - intros Hall. destruct (lib_any _); [|reflexivity].
    destruct H as [H _]. destruct (H eq_refl) as [j Hj]. rewrite Hall in Hj. discriminate.
Qed.

Lemma lib_list_NoDup l : NoDup (lib_list l).
Proof.
  apply NoDup_ListNoDup, List.NoDup_filter, seq_NoDup.
Qed.

Lemma is_atari_spec g : bits_ok (g_liberties g) ->
  is_atari g = true <-> exists j, forall i, lbit (g_liberties g) i = true <-> i = j.
Proof.
  intros Hb. unfold is_atari, number_of_liberties.
  rewrite lib_count_ones_spec by exact Hb. rewrite Nat.eqb_eq.
  pose proof (lib_list_NoDup (g_liberties g)) as Hnd.
  pose proof (fun j => elem_of_lib_list _ j Hb) as He.
  split.
  - destruct (lib_list _) as [|a [|b t]]; try discriminate. intros _. exists a.
    intros i. rewrite <- He, elem_of_list_singleton. reflexivity.
  - intros [j Hj]. destruct (lib_list _) as [|a [|b t]]; [|reflexivity|].
    + assert (j ∈ []) as Hx by (apply He, Hj; reflexivity). apply elem_of_nil in Hx. destruct Hx.
    + assert (a = j) by (apply Hj, He; left).
      assert (b = j) by (apply Hj, He; right; left). subst.
      apply NoDup_cons in Hnd as [Hn _]. destruct Hn. left.
Qed.
