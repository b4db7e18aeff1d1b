(** Release builds, boards of any size: stones counted, lists of points, scores. *)
From stdpp Require Import relations.
From Verif Require Import MonadFacts Goban Game BitsetFacts CoordFacts Struct Push Inv Remove Capture BoardFacts GameFacts TerritoryFacts RulesFacts AnySpec AnyBoard AnyGame.
From Coq Require Import Lia.

Local Notation length := Datatypes.length.

(** ** Stones *)

Lemma cells_any s g : awf s g -> board g = List.map (cell g) (seq 0 361).
Proof.
  intros W. pose proof (wf0_board g (awf_0 s g W)) as Hb. apply list_eq. intros i.
  change (@List.map nat) with (@fmap list _ nat). rewrite list_lookup_fmap.
  destruct (Nat.lt_ge_cases i 361) as [Hi|Hi].
  - rewrite lookup_seq_lt by exact Hi. cbn. destruct (lookup_lt_is_Some_2 (board g) i ltac:(lia)) as [x Hx]. unfold cell. rewrite Hx. reflexivity.
  - rewrite lookup_seq_ge by exact Hi. apply lookup_ge_None_2. lia.
Qed.

Lemma to_vec_any s g : awf s g -> to_vec g = Ok (List.map (col g) (seq 0 361)).
Proof.
  intros A. unfold to_vec. rewrite (cells_any s g A).
  assert (H : forall l, mapM (cell_color g) (List.map (cell g) l) = Ok (List.map (col g) l)).
  { induction l as [|i l IH]; [reflexivity|]. cbn [List.map mapM]. rewrite IH.
    assert (E : cell_color g (cell g i) = Ok (col g i)).
    { unfold cell_color, col. destruct (cell g i) as [k|] eqn:Ek; [|reflexivity].
      destruct (wf0_cell g (awf_0 s g A) i k Ek) as [grp Hg]. rewrite Hg, (chain_at_live _ _ _ Hg). reflexivity. }
    rewrite E. reflexivity. }
  apply H.
Qed.

Lemma count_of_icount c (f : nat -> option color) : count_of c (List.map f (seq 0 361)) = icount 19 f c.
Proof.
  unfold count_of, icount. change (19 * 19)%nat with 361%nat. induction (seq 0 361) as [|i l IH]; [reflexivity|].
  rewrite filter_cons. cbn [List.map List.filter].
  destruct (mcolor_eqb_spec (f i) (Some c)), (decide (f i = Some c)); try contradiction; cbn [length]; rewrite IH; reflexivity.
Qed.

Lemma group_size_any s g k grp : awf s g -> live g k = Some grp ->
  g_num_stones grp = length (List.filter (fun i => match cell g i with Some k' => (k' =? k)%nat | None => false end) (seq 0 (19 * 19))).
Proof.
  intros A Hk. destruct (wf0_chain g (awf_0 s g A) k grp Hk) as [_ (l & R & Hm)].
  rewrite <- (ring_num _ _ _ R). apply Permutation_length, NoDup_Permutation.
  - apply (ring_nodup _ _ _ R).
  - apply NoDup_lfilter, NoDup_ListNoDup, seq_NoDup.
  - intros i. rewrite Hm, elem_of_lfilter, elem_of_seq. split.
    + intros Hi. pose proof (cell_bound g i k (awf_0 s g A) Hi) as Hb. rewrite Hi, Nat.eqb_refl. split; [|reflexivity].
      split; [lia|]. change (19 * 19)%nat with 361%nat. lia.
    + intros [_ H]. destruct (cell g i) as [k'|]; [|discriminate]. apply Nat.eqb_eq in H. congruence.
Qed.

Lemma numbers_any s g : awf s g -> number_of_stones g = (icount 19 (col g) Black, icount 19 (col g) White).
Proof.
  intros A. pose proof (awf_0 s g A) as W. pose proof (group_size_any s g) as GS. unfold icount. revert GS.
  generalize (seq 0 (19 * 19)). intros L GS.
  set (cnt := fun m c => length (List.filter (fun i => match cell g i with
                 | Some k => (k <? m)%nat && mcolor_eqb (gcol g k) (Some c) | None => false end) L)).
  assert (HC : forall c, length (filter (fun j => col g j = Some c) L) = cnt (length (chains g)) c).
  { intros c. unfold cnt. clear GS. f_equal.
    induction L as [|i l IH]; [reflexivity|]. rewrite filter_cons. cbn [List.filter]. rewrite IH.
    destruct (cell g i) as [k|] eqn:E.
    - destruct (wf0_cell g W i k E) as [grp Hk]. unfold gcol. rewrite Hk.
      pose proof (live_lt g k grp Hk). replace (k <? length (chains g))%nat with true by (symmetry; apply Nat.ltb_lt; lia).
      cbn [andb]. assert (Ec : col g i = Some (g_color grp)) by (unfold col; rewrite E, Hk; reflexivity). rewrite Ec.
      destruct (mcolor_eqb_spec (Some (g_color grp)) (Some c)); destruct (decide (Some (g_color grp) = Some c)); try contradiction; reflexivity.
    - assert (Ec : col g i = None) by (unfold col; rewrite E; reflexivity). rewrite Ec, decide_False by discriminate. reflexivity. }
  assert (HS : forall m, (m <= length (chains g))%nat ->
    fold_left (fun '(b, w) grp => match g_color grp with
               | White => (b, w + g_num_stones grp)%nat
               | Black => (b + g_num_stones grp, w)%nat end) (omap id (take m (chains g))) (0, 0)%nat = (cnt m Black, cnt m White)).
  { induction m as [|m IH]; intros Hm.
    - rewrite take_0. cbn [omap list_omap fold_left]. unfold cnt.
      assert (E : forall c, List.filter (fun i => match cell g i with
                 | Some k => (k <? 0)%nat && mcolor_eqb (gcol g k) (Some c) | None => false end) L = []).
      { intros c. apply filter_none. intros i. destruct (cell g i); reflexivity. }
      rewrite !E. reflexivity.
    - destruct (lookup_lt_is_Some_2 (chains g) m ltac:(lia)) as [o Ho].
      rewrite (take_S_r _ _ _ Ho), omap_app, fold_left_app, IH by lia.
      assert (Hstep : forall c, cnt (S m) c = (cnt m c + (match o with Some grp => if color_eqb (g_color grp) c then g_num_stones grp else 0 | None => 0 end))%nat).
      { intros c. unfold cnt.
        rewrite (filter_split _ (fun i => match cell g i with
                 | Some k => (k <? m)%nat && mcolor_eqb (gcol g k) (Some c) | None => false end)
               (fun i => match cell g i with Some k => (k =? m)%nat && mcolor_eqb (gcol g k) (Some c) | None => false end)).
        - f_equal. assert (Hlv : live g m = o) by (unfold live; rewrite Ho; reflexivity).
          destruct o as [grp|].
          + rewrite (GS m grp A Hlv). destruct (color_eqb (g_color grp) c) eqn:Ec.
            * f_equal. apply List.filter_ext. intros i. destruct (cell g i) as [k|]; [|reflexivity].
              destruct (Nat.eqb_spec k m) as [->|]; [|reflexivity]. unfold gcol. rewrite Hlv. cbn. exact Ec.
            * rewrite filter_none; [reflexivity|]. intros i. destruct (cell g i) as [k|]; [|reflexivity].
              destruct (Nat.eqb_spec k m) as [->|]; [|reflexivity]. unfold gcol. rewrite Hlv. cbn. exact Ec.
          + rewrite filter_none; [reflexivity|]. intros i. destruct (cell g i) as [k|]; [|reflexivity].
            destruct (Nat.eqb_spec k m) as [->|]; [|reflexivity]. unfold gcol. rewrite Hlv. reflexivity.
        - intros i _. destruct (cell g i) as [k|]; [|reflexivity].
          destruct (Nat.ltb_spec k (S m)), (Nat.ltb_spec k m), (Nat.eqb_spec k m); try lia; cbn; rewrite ?orb_false_r; reflexivity.
        - intros i _. destruct (cell g i) as [k|]; [|reflexivity].
          destruct (Nat.ltb_spec k m), (Nat.eqb_spec k m); try lia; cbn; rewrite ?andb_false_r; reflexivity. }
      rewrite !Hstep. destruct o as [grp|]; cbn [omap list_omap id fold_left].
      + destruct (g_color grp); cbn; f_equal; lia.
      + f_equal; lia. }
  unfold number_of_stones, all_chains, chains_iter.
  pose proof (HS (length (chains g)) ltac:(lia)) as E. rewrite firstn_all in E.
  etransitivity; [exact E|]. rewrite !HC. reflexivity.
Qed.

(** ** The listed points and the legal moves *)

Lemma listed_idx s i : okay s -> (i < fst s * snd s)%nat -> forall p, one_to_2dim s i = Ok p -> (two_to_1dim s p < 361)%nat.
Proof.
  intros [H1 H2] Hi p E. unfold one_to_2dim in E. destruct (_ || _); [discriminate|]. injection E as <-.
  unfold two_to_1dim. cbn [fst snd]. destruct s as [h w]. cbn [fst snd] in *.
  assert (Q : (i / h < w)%nat) by (apply Nat.div_lt_upper_bound; lia).
  pose proof (Nat.mod_upper_bound i w ltac:(lia)). unfold as_u8. rewrite !Nat.mod_small by lia. nia.
Qed.

Lemma foldM_any {A B} (P : B -> Prop) (f : B -> A -> res B) l : forall b, P b ->
  (forall b x, P b -> x ∈ l -> exists b', f b x = Ok b' /\ P b') -> exists b', foldM f l b = Ok b' /\ P b'.
Proof.
  induction l as [|x l IH]; intros b Hb H; cbn [foldM]; [eauto|].
  destruct (H b x Hb ltac:(left)) as (b1 & -> & H1). cbn [bind]. apply IH; [exact H1|]. intros c y Hc Hy. apply H; [exact Hc|right; exact Hy].
Qed.

Lemma empty_coords_any s g : awf s g -> exists l, get_empty_coords g = Ok l /\ forall p, p ∈ l -> (two_to_1dim s p < 361)%nat.
Proof.
  intros A. unfold get_empty_coords. rewrite (wf0_board g (awf_0 s g A)), (awf_size s g A).
  pose proof (awf_s s g A) as Hs. pose proof Hs as [H1 H2].
  destruct (Nat.leb_spec (fst s * snd s) 361) as [Hl|Hl]; [|nia]. cbn [assert_ bind].
  apply (foldM_any (fun l => forall p, p ∈ l -> (two_to_1dim s p < 361)%nat)).
  - intros p Hp. apply elem_of_nil in Hp. destruct Hp.
  - intros acc [i c] Hacc Hx. destruct c; [eauto|].
    assert (Hi : (i < fst s * snd s)%nat).
    { apply elem_of_zip_l in Hx. apply elem_of_seq in Hx. lia. }
    destruct (one_to_2dim_any s i Hs) as [p Ep]. rewrite Ep. cbn [bind]. eexists. split; [reflexivity|].
    intros q Hq. apply elem_of_app in Hq as [Hq|Hq]; [apply Hacc, Hq|]. apply elem_of_list_singleton in Hq as ->.
    exact (listed_idx s i Hs Hi p Ep).
Qed.

Lemma legals_any s g flags : awf s (gm_goban g) -> Forall (awf s) (gm_history g) ->
  (N.of_nat (length (chains (gm_goban g))) < 65535)%N -> exists l, legals_by false g flags = Ok l.
Proof.
  intros A Hh HB. unfold legals_by, pseudo_legals. destruct (empty_coords_any s _ A) as (l & -> & Hl). cbn [bind].
  destruct (filterM_any (fun p => let! e := check_point_by false g p flags in Ok (match e with None => true | Some _ => false end)) l) as (r & -> & _).
  - intros p Hp. destruct (check_any s g A Hh p flags (Hl p Hp) HB) as [e ->]. cbn [bind]. eauto.
  - eauto.
Qed.

(** ** Territories *)

Lemma mapM_inv {A B} (f : A -> res B) (Q : A -> Prop) (P : B -> Prop) l :
  (forall x, x ∈ l -> Q x) -> (forall x, Q x -> exists b, f x = Ok b /\ P b) ->
  exists r, mapM f l = Ok r /\ length r = length l /\ forall y, y ∈ r -> P y.
Proof.
  intros HQ HP. induction l as [|x l IH]; cbn [mapM].
  - exists []. split; [reflexivity|]. split; [reflexivity|]. intros y Hy. apply elem_of_nil in Hy. destruct Hy.
  - destruct (HP x) as (b & -> & Hb); [apply HQ; left|]. cbn [bind].
    destruct IH as (r & -> & L & Hr); [intros y Hy; apply HQ; right; exact Hy|]. cbn [bind].
    eexists. split; [reflexivity|]. split; [cbn [length]; lia|]. intros y Hy. apply elem_of_cons in Hy as [->|Hy]; [exact Hb|apply Hr, Hy].
Qed.

Lemma connected_points_any s g p : awf s g ->
  exists l, get_connected_points false g p = Ok l /\ (length l <= 4)%nat /\ forall x, x ∈ l -> is_coord_valid s (fst x) = true.
Proof.
  intros A. unfold get_connected_points, neighbors_coords. rewrite (awf_size s g A).
  destruct (valid_coords_any s p (awf_s s g A)) as (l & -> & L & Hl). cbn [bind].
  destruct (mapM_inv (fun q => let! c := get_color g q in Ok (q, c)) (fun q => is_coord_valid s q = true)
             (fun x : point => is_coord_valid s (fst x) = true) l Hl) as (r & -> & Lr & Hr).
  - intros q Hq. rewrite (get_color_any s g q A (valid_idx s q (awf_s s g A) Hq)). cbn [bind]. eexists. split; [reflexivity|exact Hq].
  - exists r. split; [reflexivity|]. split; [unfold point, coord in *; lia|exact Hr].
Qed.

Section Fill.
  Variables (s : size_t) (g : goban) (mc : option color) (p0 : point).
  Hypothesis A : awf s g.

  Definition ainside (x : point) : Prop := snd x = mc /\ is_coord_valid s (fst x) = true.

  Lemma ainside_bound (E : list point) : NoDup E -> (forall x, x ∈ E -> x = p0 \/ ainside x) -> (length E <= 362)%nat.
  Proof using A.
    intros Nd HE. destruct (awf_s s g A) as [H1 H2].
    set (all := p0 :: List.map (fun q => (q, mc)) (list_prod (seq 0 (fst s)) (seq 0 (snd s)))).
    transitivity (length all).
    - apply submseteq_length, NoDup_submseteq; [exact Nd|]. intros x Hx. destruct (HE x Hx) as [->|[Hm Hv]]; [left|]. right.
      destruct x as [[r c] m]. cbn [fst snd] in *. subst m. apply elem_of_list_In, List.in_map_iff. exists (r, c). split; [reflexivity|].
      unfold is_coord_valid in Hv. apply andb_true_iff in Hv as [V1 V2]. apply Nat.ltb_lt in V1, V2. cbn [fst snd] in V1, V2.
      apply List.in_prod; apply List.in_seq; lia.
    - unfold all. cbn [length]. rewrite List.map_length, List.prod_length, !seq_length. nia.
  Qed.

  Definition ameasure (E S : list point) : nat :=
    (8 * (362 - length E) + length S +
     match S with s :: _ => if set_contains E s then 4 else 0 | [] => 0 end)%nat.

  Lemma explore_any fuel : forall E S,
    (ameasure E S < fuel)%nat -> NoDup E -> (forall x, x ∈ E -> x = p0 \/ ainside x) -> (forall x, x ∈ S -> ainside x) ->
    exists R, explore fuel false g mc E S = Ok R.
  Proof using A.
    induction fuel as [|f IH]; intros E S Hf Nd HE HS; [lia|].
    cbn [explore]. destruct S as [|z rest]; [eauto|].
    destruct (connected_points_any s g (fst z) A) as (nb & -> & Lnb & Hnb). cbn [bind].
    set (E' := set_insert E z). set (new := List.filter _ _).
    assert (Hnew : forall x, x ∈ new -> x ∉ E' /\ ainside x).
    { intros x Hx. unfold new in Hx. apply elem_of_lfilter in Hx as [Hx Hc]. apply andb_true_iff in Hc as [Hc Hn]. apply negb_true_iff in Hn.
      split; [intros Hx'; apply set_contains_spec in Hx'; congruence|]. split; [|apply Hnb, Hx].
      destruct (mcolor_eqb_spec (snd x) mc); [assumption|discriminate]. }
    assert (Hlen : (length new <= 4)%nat).
    { unfold new. etransitivity; [apply lfilter_length|exact Lnb]. }
    assert (NdE' : NoDup E') by apply set_insert_NoDup, Nd.
    assert (HE' : forall x, x ∈ E' -> x = p0 \/ ainside x).
    { intros x Hx. apply set_insert_spec in Hx as [Hx| ->]; [apply HE, Hx|right; apply HS; left]. }
    apply IH.
    - pose proof (ainside_bound E' NdE' HE') as Hb. pose proof (set_insert_length E z) as Hl. fold E' in Hl.
      unfold ameasure in *. cbn [length] in Hf. rewrite app_length, rev_length.
      destruct (rev new) as [|y rn] eqn:Er.
      + apply (f_equal (@length point)) in Er. rewrite rev_length in Er. cbn [length] in Er. cbn [app].
        assert (match rest with [] => 0 | s0 :: _ => if set_contains E' s0 then 4 else 0 end <= 4)%nat.
        { destruct rest as [|z' rest']; [lia|]. destruct (set_contains E' z'); lia. }
        unfold point in *. destruct (set_contains E z); lia.
      + assert (Hy : set_contains E' y = false).
        { destruct (set_contains E' y) eqn:Ey; [|reflexivity]. apply set_contains_spec in Ey.
          assert (Hyn : y ∈ new) by (apply elem_of_list_In, in_rev; rewrite Er; left; reflexivity).
          apply Hnew in Hyn. tauto. }
        cbn [app]. rewrite Hy. unfold point in *. destruct (set_contains E z); lia.
    - exact NdE'.
    - exact HE'.
    - intros x Hx. apply elem_of_app in Hx as [Hx|Hx]; [|apply HS; right; exact Hx].
      apply elem_of_list_In, in_rev, elem_of_list_In, Hnew in Hx. tauto.
  Qed.
End Fill.

Lemma group_from_any s g x : awf s g -> exists R, get_group_from_point false g x = Ok R.
Proof.
  intros A. unfold get_group_from_point. destruct (connected_points_any s g (fst x) A) as (nb & -> & Lnb & Hnb). cbn [bind].
  set (new := List.filter _ _). assert (Hlen : (length new <= 4)%nat) by (unfold new; etransitivity; [apply lfilter_length|exact Lnb]).
  apply (explore_any s g (snd x) x A).
  - unfold ameasure. rewrite rev_length. cbn [length]. change explore_fuel with 3000%nat.
    assert (match rev new with [] => 0 | s0 :: _ => if set_contains [x] s0 then 4 else 0 end <= 4)%nat.
    { destruct (rev new) as [|z l]; [lia|]. destruct (set_contains [x] z); lia. }
    unfold point in *. lia.
  - apply NoDup_singleton.
  - intros y Hy. apply elem_of_list_singleton in Hy. auto.
  - intros y Hy. apply elem_of_list_In, in_rev, elem_of_list_In in Hy. unfold new in Hy. apply elem_of_lfilter in Hy as [Hy Hc].
    split; [|apply Hnb, Hy]. destruct (mcolor_eqb_spec (snd y) (snd x)); [assumption|discriminate].
Qed.

Lemma scan_group_any s g grp : awf s g -> forall n, exists r, scan_group false g grp n = Ok r.
Proof.
  intros A. induction grp as [|e t IH]; intros n; cbn [scan_group]; [eauto|].
  destruct (connected_points_any s g (fst e) A) as (nb & -> & _). cbn [bind]. destruct (scan_points nb n); [apply IH|eauto].
Qed.

Lemma territories_any s order g : awf s g -> exists bw, get_territories order false g = Ok bw.
Proof.
  intros A. unfold get_territories. destruct (empty_coords_any s g A) as (l & -> & _). cbn [bind]. unfold get_chains_from_stones.
  destruct (foldM_any (fun _ => True) (fun acc x => if existsb (fun set => set_contains set x) acc then Ok acc
           else let! grp := get_group_from_point false g x in Ok (acc ++ [grp])) (List.map (fun p => (p, None)) l) [] I) as (chs & -> & _).
  - intros acc x _ _. destruct (existsb _ _); [eauto|]. destruct (group_from_any s g x A) as [R ->]. cbn [bind]. eauto.
  - cbn [bind]. match goal with |- context [foldM ?F chs ?b] => destruct (foldM_any (fun _ => True) F chs b I) as (bw & -> & _) end; [|eauto].
    intros [bt wt] grp _ _. destruct (scan_group_any s g (order grp) A (false, false)) as [[[nb nw]|] ->]; cbn [bind]; [|eauto].
    destruct (nb && negb nw); [eauto|]. destruct (negb nb && nw); eauto.
Qed.

Lemma score_any s order g flags : awf s (gm_goban g) -> exists bw, calculate_score_by order false g flags = Ok bw.
Proof.
  intros A. unfold calculate_score_by, calculate_territories. destruct (territories_any s order _ A) as [[bt wt] ->]. cbn [bind].
  destruct (flag_contains flags PRISONNERS), (flag_contains flags STONES); destruct (number_of_stones (gm_goban g)); eauto.
Qed.

Lemma outcome_any s order g : awf s (gm_goban g) -> exists o, outcome order false g = Ok o.
Proof.
  intros A. unfold outcome. destruct (negb _); [eauto|]. destruct (gm_outcome g); [eauto|]. unfold calculate_score.
  destruct (score_any s order g (flag_score (gm_rule g)) A) as [[b w] ->]. cbn [bind].
  destruct (f32_lt _ _); [eauto|]. destruct (f32_lt _ _); eauto.
Qed.
