(** Counting on boards that are not square: stones are counted right when the
    width divides the height, territory only on square boards. *)
From stdpp Require Import relations.
From Verif Require Import Spec Observe RectSpec RectReach Territory.
From Verif Require Import MonadFacts Struct Push Inv Capture Bridge GameFacts BoardFacts ClaimFacts TerritoryFacts RulesFacts SampleFacts CaseFacts RectCoord RectInv RectCapture RectBridge RectGame RectReachFacts RectBoard RectList RectGo RectCases.
From Coq Require Import Lia.

Local Notation length := Datatypes.length.
Open Scope nat_scope.

(** ** Stones *)

Lemma rgroup_size n g k grp : rwf n g -> live g k = Some grp ->
  g_num_stones grp = length (List.filter (fun i => match cell g i with Some k' => (k' =? k)%nat | None => false end) (vidx n)).
Proof.
  intros W Hk. destruct (wf0_chain g (rwf_0 n g W) k grp Hk) as [_ (l & R & Hm)].
  rewrite <- (ring_num _ _ _ R). apply Permutation_length, NoDup_Permutation.
  - apply (ring_nodup _ _ _ R).
  - apply NoDup_lfilter, NoDup_vidx.
  - intros i. rewrite Hm, elem_of_lfilter, elem_of_vidx by apply (rwf_n n g W). split.
    + intros Hi. pose proof (rwf_on n g W i k Hi). rewrite Hi, Nat.eqb_refl. split; [assumption|reflexivity].
    + intros [_ H]. destruct (cell g i) as [k'|]; [|discriminate]. apply Nat.eqb_eq in H. congruence.
Qed.

Lemma rnumber_of_stones_ok n g : rwf n g ->
  number_of_stones g = (rcount n (pos_of g) Black, rcount n (pos_of g) White).
Proof.
  intros W.
  set (cnt := fun m c => length (List.filter (fun i => match cell g i with
                 | Some k => (k <? m)%nat && mcolor_eqb (gcol g k) (Some c) | None => false end) (vidx n))).
  assert (HC : forall c, rcount n (pos_of g) c = cnt (length (chains g)) c).
  { intros c. rewrite (rcount_pos n g c W). unfold ricount, cnt. f_equal.
    induction (vidx n) as [|i l IH]; [reflexivity|]. rewrite filter_cons. cbn [List.filter]. rewrite IH.
    destruct (cell g i) as [k|] eqn:E.
    - destruct (rcol_cell n g i k W E) as (grp & Hk & ->). unfold gcol. rewrite Hk.
      pose proof (live_lt g k grp Hk). replace (k <? length (chains g))%nat with true by (symmetry; apply Nat.ltb_lt; lia).
      cbn [andb]. destruct (mcolor_eqb_spec (Some (g_color grp)) (Some c)); destruct (decide (Some (g_color grp) = Some c)); try contradiction; reflexivity.
    - rewrite (proj2 (rcol_None n g i W) E). rewrite decide_False by discriminate. reflexivity. }
  assert (HS : forall m, (m <= length (chains g))%nat ->
    fold_left (fun '(b, w) grp => match g_color grp with
               | White => (b, w + g_num_stones grp)%nat
               | Black => (b + g_num_stones grp, w)%nat end) (omap id (take m (chains g))) (0, 0)%nat = (cnt m Black, cnt m White)).
  { induction m as [|m IH]; intros Hm.
    - rewrite take_0. cbn [omap list_omap fold_left]. unfold cnt.
      assert (E : forall c, List.filter (fun i => match cell g i with
                 | Some k => (k <? 0)%nat && mcolor_eqb (gcol g k) (Some c) | None => false end) (vidx n) = []).
      { intros c. apply filter_none. intros i. destruct (cell g i); reflexivity. }
      rewrite !E. reflexivity.
    - destruct (lookup_lt_is_Some_2 (chains g) m ltac:(lia)) as [o Ho].
      rewrite (take_S_r _ _ _ Ho), omap_app, fold_left_app, IH by lia.
      assert (Hstep : forall c, cnt (S m) c = (cnt m c + (match o with Some grp => if color_eqb (g_color grp) c then g_num_stones grp else 0 | None => 0 end))%nat).
      { intros c. unfold cnt.
        rewrite (filter_split _ (fun i => match cell g i with
                 | Some k => (k <? m)%nat && mcolor_eqb (gcol g k) (Some c) | None => false end)
               (fun i => match cell g i with Some k => (k =? m)%nat && mcolor_eqb (gcol g k) (Some c) | None => false end)).
        - f_equal. assert (Hlv : live g m = o) by (unfold live; rewrite Ho; reflexivity).
          destruct o as [grp|].
          + rewrite (rgroup_size n g m grp W Hlv). destruct (color_eqb (g_color grp) c) eqn:Ec.
            * f_equal. apply List.filter_ext. intros i. destruct (cell g i) as [k|]; [|reflexivity].
              destruct (Nat.eqb_spec k m) as [->|]; [|reflexivity]. unfold gcol. rewrite Hlv. cbn. exact Ec.
            * rewrite filter_none; [reflexivity|]. intros i. destruct (cell g i) as [k|]; [|reflexivity].
              destruct (Nat.eqb_spec k m) as [->|]; [|reflexivity]. unfold gcol. rewrite Hlv. cbn. exact Ec.
          + rewrite filter_none; [reflexivity|]. intros i. destruct (cell g i) as [k|]; [|reflexivity].
            destruct (Nat.eqb_spec k m) as [->|]; [|reflexivity]. unfold gcol. rewrite Hlv. reflexivity.
        - intros i _. destruct (cell g i) as [k|]; [|reflexivity].
          destruct (Nat.ltb_spec k (S m)), (Nat.ltb_spec k m), (Nat.eqb_spec k m); try lia; cbn; rewrite ?orb_false_r; reflexivity.
        - intros i _. destruct (cell g i) as [k|]; [|reflexivity].
          destruct (Nat.ltb_spec k m), (Nat.eqb_spec k m); try lia; cbn; rewrite ?andb_false_r; reflexivity. }
      rewrite !Hstep. destruct o as [grp|]; cbn [omap list_omap id fold_left].
      + destruct (g_color grp); cbn; f_equal; lia.
      + f_equal; lia. }
  unfold number_of_stones, all_chains, chains_iter.
  pose proof (HS (length (chains g)) ltac:(lia)) as E. rewrite firstn_all in E.
  etransitivity; [exact E|]. rewrite !HC. reflexivity.
Qed.

Theorem rect_count dbg n b w g : Nat.divide (snd n) (fst n) -> rgreach dbg n b w g ->
  number_of_stones (gm_goban g) = (rcount n (position g) Black, rcount n (position g) White).
Proof. intros Hd H. apply rnumber_of_stones_ok, (rgi_wf _ _ _ _ (rgreach_inv _ _ _ _ _ Hd H)). Qed.

(** ** Territory *)

Lemma square_territory dbg n : counts_territory dbg (n, n).
Proof.
  intros b w g order H Ho. apply square_reach in H. pose proof (gi_wf _ _ _ _ (greach_inv _ _ _ _ _ H)) as W.
  exact (territories_ok order dbg n (gm_goban g) W Ho).
Qed.

(** points are added by the exploration with the colour they have on the board *)
Lemma mapM_elem {A B} (f : A -> res B) l : forall l', mapM f l = Ok l' -> forall y, y ∈ l' -> exists x, x ∈ l /\ f x = Ok y.
Proof.
  induction l as [|a l IH]; intros l' H y Hy.
  - injection H as <-. apply elem_of_nil in Hy. contradiction.
  - cbn [mapM] in H. apply bind_ok in H as (b & E & H). apply bind_ok in H as (t & Et & H). injection H as <-.
    apply elem_of_cons in Hy as [->|Hy]; [exists a; split; [apply elem_of_list_here|exact E]|].
    destruct (IH t Et y Hy) as (x & Hx & Ex). exists x. split; [apply elem_of_list_further, Hx|exact Ex].
Qed.

Definition shown (g : goban) (x : point) : Prop :=
  is_coord_valid (gsize g) (fst x) = true /\ get_color g (fst x) = Ok (snd x).

Lemma connected_points_shown dbg g p l : get_connected_points dbg g p = Ok l -> forall x, x ∈ l -> shown g x.
Proof.
  intros H x Hx. unfold get_connected_points in H. apply bind_ok in H as (ns & E & H).
  unfold neighbors_coords, valid_coords in E. apply bind_ok in E as (ns' & _ & E). injection E as <-.
  destruct (mapM_elem _ _ _ H x Hx) as (q & Hq & Eq). apply bind_ok in Eq as (c & Ec & Eq). injection Eq as <-.
  apply elem_of_lfilter in Hq as [_ Hq]. split; assumption.
Qed.

Lemma explore_shown fuel dbg g mc : forall ex todo l, explore fuel dbg g mc ex todo = Ok l ->
  (forall x, x ∈ todo -> shown g x) -> forall x, x ∈ l -> x ∈ ex \/ shown g x.
Proof.
  induction fuel as [|f IH]; intros ex todo l H Ht x Hx; [discriminate|]. cbn [explore] in H.
  destruct todo as [|s rest]; [injection H as <-; left; exact Hx|].
  apply bind_ok in H as (nb & E & H).
  destruct (IH _ _ _ H) with (x := x) as [K|K]; [|exact Hx| |right; exact K].
  - intros y Hy. apply elem_of_app in Hy as [Hy|Hy]; [|apply Ht, elem_of_list_further, Hy].
    apply elem_of_list_In, in_rev, elem_of_list_In, elem_of_lfilter in Hy as [Hy _]. exact (connected_points_shown _ _ _ _ E y Hy).
  - apply set_insert_spec in K as [K| ->]; [left; exact K|right; apply Ht, elem_of_list_here].
Qed.

Lemma explore_keeps fuel dbg g mc : forall ex todo l, explore fuel dbg g mc ex todo = Ok l -> forall x, x ∈ ex -> x ∈ l.
Proof.
  induction fuel as [|f IH]; intros ex todo l H x Hx; [discriminate|]. cbn [explore] in H.
  destruct todo as [|s rest]; [injection H as <-; exact Hx|].
  apply bind_ok in H as (nb & E & H). apply (IH _ _ _ H). apply set_insert_spec. left. exact Hx.
Qed.

Lemma group_shown dbg g s l : get_group_from_point dbg g s = Ok l -> s ∈ l /\ forall x, x ∈ l -> x = s \/ shown g x.
Proof.
  intros H. unfold get_group_from_point in H. apply bind_ok in H as (nb & E & H). split.
  - apply (explore_keeps _ _ _ _ _ _ _ H), elem_of_list_here.
  - intros x Hx. destruct (explore_shown _ _ _ _ _ _ _ H) with (x := x) as [K|K]; [|exact Hx| |right; exact K].
    + intros y Hy. apply elem_of_list_In, in_rev, elem_of_list_In, elem_of_lfilter in Hy as [Hy _]. exact (connected_points_shown _ _ _ _ E y Hy).
    + apply elem_of_list_singleton in K. left. exact K.
Qed.

(** a point listed as empty that is not shown as empty starts a region of its own *)
Lemma chains_start dbg g s grp : ~ shown g s -> get_group_from_point dbg g s = Ok grp ->
  forall l acc L, foldM (fun acc s =>
           if existsb (fun set => set_contains set s) acc then Ok acc
           else let! grp := get_group_from_point dbg g s in Ok (acc ++ [grp])) l acc = Ok L ->
  (forall G, G ∈ acc -> s ∈ G -> G = grp) -> s ∈ l \/ grp ∈ acc -> grp ∈ L.
Proof.
  intros Hs Hg. induction l as [|a l IH]; intros acc L H Ha Hin.
  - injection H as <-. destruct Hin as [Hin|Hin]; [apply elem_of_nil in Hin; contradiction|exact Hin].
  - cbn [foldM] in H. apply bind_ok in H as (acc' & E & H).
    destruct (existsb (fun set => set_contains set a) acc) eqn:Ex.
    + injection E as <-. apply (IH acc L H Ha). destruct Hin as [Hin|Hin]; [|right; exact Hin].
      apply elem_of_cons in Hin as [<-|Hin]; [|left; exact Hin]. right.
      apply existsb_exists in Ex as (G & HG & Hc). apply set_contains_spec in Hc. apply elem_of_list_In in HG.
      rewrite <- (Ha G HG Hc). exact HG.
    + apply bind_ok in E as (G & EG & E). injection E as <-. apply (IH _ L H).
      * intros G' HG' Hc. apply elem_of_app in HG' as [HG'|HG']; [exact (Ha G' HG' Hc)|].
        apply elem_of_list_singleton in HG' as ->. destruct (proj2 (group_shown _ _ _ _ EG) s Hc) as [->|K]; [congruence|contradiction].
      * destruct Hin as [Hin|Hin]; [|right; apply elem_of_app; left; exact Hin].
        apply elem_of_cons in Hin as [<-|Hin]; [|left; exact Hin]. right. apply elem_of_app. right. apply elem_of_list_singleton. congruence.
Qed.

Lemma collect_keeps (f : list point -> res (option (bool * bool))) : forall L acc out,
  foldM (fun '(bt, wt) grp =>
             let! s := f grp in
             match s with
             | None => Ok (bt, wt)
             | Some (nb, nw) =>
                 if nb && negb nw then Ok (bt ++ grp, wt)
                 else if negb nb && nw then Ok (bt, wt ++ grp)
                 else Ok (bt, wt)
             end) L acc = Ok out ->
  (forall x, x ∈ fst acc -> x ∈ fst out) /\
  (forall grp, grp ∈ L -> f grp = Ok (Some (true, false)) -> forall x, x ∈ grp -> x ∈ fst out).
Proof.
  induction L as [|G L IH]; intros [bt wt] out H.
  - injection H as <-. split; [auto|]. intros grp Hg. apply elem_of_nil in Hg. contradiction.
  - cbn [foldM] in H. apply bind_ok in H as ([bt' wt'] & E & H). destruct (IH _ _ H) as [K1 K2]. cbn [fst] in *.
    apply bind_ok in E as (s & Es & E).
    assert (S : forall x, x ∈ bt -> x ∈ bt').
    { intros x Hx. destruct s as [[[] []]|]; cbn in E; injection E as <- <-; try exact Hx. apply elem_of_app. left. exact Hx. }
    split; [auto|]. intros grp Hg Ef x Hx. apply elem_of_cons in Hg as [->|Hg]; [|exact (K2 grp Hg Ef x Hx)].
    rewrite Ef in Es. injection Es as <-. cbn in E. injection E as <- <-. apply K1, elem_of_app. right. exact Hx.
Qed.

(** a game in which [p], which is occupied or off the board, is counted *)
Definition miscounts (dbg : bool) (h w : nat) (l : list move) (p : coord) : bool :=
  match rsample dbg h w JAPANESE l with
  | Some g =>
      match get_empty_coords (gm_goban g) with
      | Ok es => existsb (coord_eqb p) es &&
          (negb (is_coord_valid (gsize (gm_goban g)) p) || match get_color (gm_goban g) p with Ok None => false | _ => true end) &&
          (negb ((fst p <? h) && (snd p <? w)) || negb (has g p None)) &&
          match get_group_from_point dbg (gm_goban g) (p, None) with
          | Ok grp => match scan_group dbg (gm_goban g) grp (false, false) with Ok (Some (true, false)) => true | _ => false end
          | _ => false
          end
      | _ => false
      end
  | None => false
  end.

Lemma miscounts_territory dbg h w l p : 1 <= h < 256 -> 1 <= w < 256 -> miscounts dbg h w l p = true -> ~ counts_territory dbg (h, w).
Proof.
  intros Hh Hw H C. unfold miscounts in H. destruct (rsample dbg h w JAPANESE l) as [g|] eqn:E; [|discriminate].
  destruct (rsample_reach _ _ _ _ _ _ Hh Hw E) as (b & w' & R & _).
  destruct (get_empty_coords (gm_goban g)) as [es| |] eqn:Ee; try discriminate.
  apply andb_true_iff in H as [H H4]. apply andb_true_iff in H as [H H3]. apply andb_true_iff in H as [H1 H2].
  destruct (get_group_from_point dbg (gm_goban g) (p, None)) as [grp| |] eqn:Eg; try discriminate.
  destruct (scan_group dbg (gm_goban g) grp (false, false)) as [[[[] []]|]| |] eqn:Es; try discriminate.
  destruct (C b w' g (fun l => l) R (fun l => Permutation_refl l)) as (bt & wt & Et & _ & _ & Hb & _).
  assert (Hs : ~ shown (gm_goban g) (p, None)).
  { intros [K1 K2]. cbn [fst snd] in K1, K2. rewrite K1, K2 in H2. discriminate. }
  unfold get_territories in Et. rewrite Ee in Et. cbn [bind] in Et. apply bind_ok in Et as (L & EL & Et).
  assert (HL : grp ∈ L).
  { apply (chains_start dbg (gm_goban g) (p, None) grp Hs Eg _ [] L EL).
    - intros G HG. apply elem_of_nil in HG. contradiction.
    - left. apply existsb_exists in H1 as (q & Hq & Eq). apply coord_eqb_eq in Eq as <-.
      apply elem_of_list_In, in_map_iff. exists p. auto. }
  pose proof (proj2 (collect_keeps _ _ _ _ Et) grp HL Es (p, None) (proj1 (group_shown _ _ _ _ Eg))) as K. cbn [fst] in K.
  apply Hb in K as [_ K]. cbn [fst] in K. destruct K as [Ko [Kn _]]. destruct Ko as [K1 K2]. cbn [fst snd] in K1, K2.
  apply Nat.ltb_lt in K1, K2. rewrite K1, K2 in H3. cbn [andb negb orb] in H3.
  unfold has in H3. rewrite bool_decide_eq_true_2 in H3 by exact Kn. discriminate.
Qed.

(** such a game for every size that is not square *)
Definition spoiler (h w : nat) : list move * coord :=
  if w <? h then
    (if w =? 1 then [MPlay 0 0; MPass; MPlay 1 0] else [MPlay 0 0; MPass; MPlay 0 1; MPass; MPlay 1 0], (0, 0))
  else if h =? 1 then (if w =? 2 then [MPlay 0 0] else [MPlay 0 0; MPass; MPlay 0 2], (1, 1))
  else if (h * h) mod w =? h then ([MPlay 0 0], (h, h))
  else let c := (h * h) mod w in ([MPlay (h - 1) c], (h, c)).

Lemma spoiled dbg : forallb (fun h => forallb (fun w => (h =? w) || miscounts dbg h w (fst (spoiler h w)) (snd (spoiler h w))) (seq 1 19)) (seq 1 19) = true.
Proof. destruct dbg; vm_compute; reflexivity. Qed.

Theorem territory_iff_square dbg h w : 1 <= h <= 19 -> 1 <= w <= 19 -> counts_territory dbg (h, w) <-> h = w.
Proof.
  intros Hh Hw. split.
  - intros C. destruct (Nat.eq_dec h w) as [|Hne]; [assumption|exfalso].
    pose proof (spoiled dbg) as S. rewrite forallb_forall in S. specialize (S h (proj2 (in_seq 19 1 h) ltac:(lia))). cbv beta in S.
    rewrite forallb_forall in S. specialize (S w (proj2 (in_seq 19 1 w) ltac:(lia))). cbv beta in S.
    apply Nat.eqb_neq in Hne. rewrite Hne in S. cbn [orb] in S.
    revert C. eapply miscounts_territory; [lia|lia|exact S].
  - intros ->. apply square_territory.
Qed.

(** ** The iteration order of the sets does not show *)

Definition rnear (n : size_t) (P : pos) (c : color) (grp : list point) : bool :=
  existsb (fun e : point => existsb (fun q => mcolor_eqb (P q) (Some c)) (rnbrs n (fst e))) grp.

Lemma rscan_group_ok dbg n g grp : rwf n g -> (forall x, x ∈ grp -> ron n (fst x)) -> forall b w, b && w = false ->
  scan_group dbg g grp (b, w) =
  Ok (let b' := b || rnear n (pos_of g) Black grp in let w' := w || rnear n (pos_of g) White grp in
      if b' && w' then None else Some (b', w')).
Proof.
  intros W. induction grp as [|e grp IH]; intros Hon b w H; cbn [scan_group].
  - cbn [rnear existsb]. rewrite !orb_false_r, H. reflexivity.
  - rewrite (rconnected_points_ok dbg n g (fst e) W) by (apply Hon; left). cbn [bind].
    rewrite scan_points_ok by exact H.
    assert (Hs : forall c, sees c (List.map (fun q => (q, pos_of g q)) (rnbrs n (fst e))) =
                           existsb (fun q => mcolor_eqb (pos_of g q) (Some c)) (rnbrs n (fst e))).
    { intros c. unfold sees. induction (rnbrs n (fst e)) as [|q l IHl]; [reflexivity|]. cbn. rewrite IHl. reflexivity. }
    rewrite !Hs. unfold rnear. cbn [existsb]. fold (rnear n (pos_of g) Black grp) (rnear n (pos_of g) White grp).
    set (sb := existsb (fun q => mcolor_eqb (pos_of g q) (Some Black)) _). set (sw := existsb (fun q => mcolor_eqb (pos_of g q) (Some White)) _).
    destruct ((b || sb) && (w || sw)) eqn:Eb.
    + apply andb_true_iff in Eb as [E1 E2]. rewrite !orb_assoc, E1, E2. reflexivity.
    + rewrite (IH (fun x Hx => Hon x (elem_of_list_further _ _ _ Hx)) _ _ Eb). rewrite !orb_assoc. reflexivity.
Qed.

Lemma rnear_perm n P c l l' : l ≡ₚ l' -> rnear n P c l = rnear n P c l'.
Proof.
  intros H. apply eq_true_iff_eq. unfold rnear. rewrite !existsb_exists.
  split; intros (x & Hx & E); exists x; (split; [|exact E]); [rewrite <- H|rewrite H]; exact Hx.
Qed.

Lemma chains_on dbg g (P : point -> Prop) : (forall x, shown g x -> P x) -> forall l acc L,
  foldM (fun acc s =>
           if existsb (fun set => set_contains set s) acc then Ok acc
           else let! grp := get_group_from_point dbg g s in Ok (acc ++ [grp])) l acc = Ok L ->
  (forall x, x ∈ l -> P x) -> (forall G, G ∈ acc -> forall x, x ∈ G -> P x) -> forall G, G ∈ L -> forall x, x ∈ G -> P x.
Proof.
  intros Hs. induction l as [|a l IH]; intros acc L H Hl Ha; [injection H as <-; exact Ha|].
  cbn [foldM] in H. apply bind_ok in H as (acc' & E & H).
  apply (IH _ _ H); [intros x Hx; apply Hl, elem_of_list_further, Hx|].
  destruct (existsb (fun set => set_contains set a) acc); [injection E as <-; exact Ha|].
  apply bind_ok in E as (G & EG & E). injection E as <-.
  intros G' HG' x Hx. apply elem_of_app in HG' as [HG'|HG']; [exact (Ha G' HG' x Hx)|].
  apply elem_of_list_singleton in HG' as ->. destruct (proj2 (group_shown _ _ _ _ EG) x Hx) as [->|K]; [apply Hl, elem_of_list_here|exact (Hs x K)].
Qed.

Lemma collect_order dbg n g order : rwf n g -> (forall l, order l ≡ₚ l) -> forall L a b a' b',
  (forall G, G ∈ L -> forall x, x ∈ G -> ron n (fst x)) -> length a = length a' -> length b = length b' ->
  let step (order : list point -> list point) := foldM (fun '(bt, wt) grp =>
             let! s := scan_group dbg g (order grp) (false, false) in
             match s with
             | None => Ok (bt, wt)
             | Some (nb, nw) =>
                 if nb && negb nw then Ok (bt ++ order grp, wt)
                 else if negb nb && nw then Ok (bt, wt ++ order grp)
                 else Ok (bt, wt)
             end) L in
  exists p p', step order (a, b) = Ok p /\ step (fun l => l) (a', b') = Ok p' /\ length (fst p) = length (fst p') /\ length (snd p) = length (snd p').
Proof.
  intros W Ho. induction L as [|G L IH]; intros a b a' b' HL Ea Eb.
  - exists (a, b), (a', b'). split; [reflexivity|]. split; [reflexivity|]. split; assumption.
  - pose proof (HL G (elem_of_list_here _ _)) as HG.
    assert (HL' : forall G, G ∈ L -> forall x, x ∈ G -> ron n (fst x)) by (intros G' HG'; apply HL, elem_of_list_further, HG').
    cbn [foldM].
    rewrite (rscan_group_ok dbg n g G W HG), (rscan_group_ok dbg n g (order G) W) by (try reflexivity; intros x Hx; apply HG; rewrite <- (Ho G); exact Hx).
    rewrite !(rnear_perm _ _ _ (order G) G (Ho G)). cbn [bind orb].
    destruct (rnear n (pos_of g) Black G), (rnear n (pos_of g) White G); cbn [andb negb bind]; apply IH; try assumption;
      rewrite !app_length, (Permutation_length (Ho G)); congruence.
Qed.

Lemma rterritory_order order dbg n g k : rwf n g -> fst n = k * snd n -> (forall l, order l ≡ₚ l) ->
  calculate_territories order dbg g = calculate_territories (fun l => l) dbg g.
Proof.
  intros W Hk Ho. unfold calculate_territories, get_territories.
  destruct (rempty_times n g k (0, 0) W Hk) as (es & -> & Hes & _). cbn [bind].
  destruct (get_chains_from_stones dbg g (List.map (fun p => (p, None)) es)) as [L| |] eqn:E; try reflexivity. cbn [bind].
  assert (HL : forall G, G ∈ L -> forall x, x ∈ G -> ron n (fst x)).
  { apply (chains_on dbg g (fun x => ron n (fst x))) with (l := List.map (fun p => (p, None)) es) (acc := []).
    - intros x [Hv _]. rewrite (rwf_size n g W) in Hv. unfold is_coord_valid in Hv. apply andb_true_iff in Hv as [H1 H2]. apply Nat.ltb_lt in H1, H2. split; assumption.
    - exact E.
    - intros x Hx. apply elem_of_list_In, in_map_iff in Hx as (p & <- & Hp). apply Hes, elem_of_list_In, Hp.
    - intros G HG. apply elem_of_nil in HG. contradiction. }
  destruct (collect_order dbg n g order W Ho L [] [] [] [] HL eq_refl eq_refl) as ([bt wt] & [bt' wt'] & E1 & E2 & L1 & L2).
  rewrite E1, E2. cbn [bind fst snd] in *. rewrite L1, L2. reflexivity.
Qed.

(** ** A wrong winner *)

(** Black has the three rows at the top, with two eyes, White the fourth row *)
Definition wrong_moves : list move :=
  [MPlay 0 1; MPlay 3 0; MPlay 1 0; MPlay 3 1; MPlay 1 1; MPlay 3 2; MPlay 1 2; MPass; MPlay 2 0; MPass; MPlay 2 1; MPass; MPlay 2 2; MPass; MPass].

Definition wrong_position (p : coord) : option color :=
  if fst p <? 3 then if (fst p =? 0) && negb (snd p =? 1) then None else Some Black
  else if fst p =? 3 then Some White else None.

Lemma wrong_regions P : (forall p, ron (6, 3) p -> P p = wrong_position p) ->
  forall p q, rconnected (6, 3) P p q -> ron (6, 3) p -> P p = None -> ron (6, 3) q /\ P q = None /\ (fst p < 3 -> q = p) /\ (3 < fst p -> 3 < fst q).
Proof.
  intros HP p q H Hp Hn. induction H as [p|p q r (Hp' & Hq & Ha & E) _ IH]; [auto|].
  assert (K : (fst p < 3 -> False) /\ (3 < fst p -> 3 < fst q)).
  { assert (Hqn : P q = None) by congruence. rewrite HP in Hn, Hqn by assumption. clear -Hp Hq Ha Hn Hqn.
    destruct p as [a b], q as [c d]. unfold ron, adj, wrong_position in *. cbn [fst snd] in *.
    destruct (Nat.ltb_spec a 3), (Nat.ltb_spec c 3), (Nat.eqb_spec a 3), (Nat.eqb_spec c 3), (Nat.eqb_spec a 0), (Nat.eqb_spec c 0), (Nat.eqb_spec b 1), (Nat.eqb_spec d 1);
      cbn in Hn, Hqn; try discriminate; split; lia. }
  destruct (IH Hq ltac:(congruence)) as (I1 & I2 & I3 & I4). split; [exact I1|]. split; [exact I2|].
  split; [intros L; destruct (proj1 K L)|intros L; exact (I4 (proj2 K L))].
Qed.

Lemma wrong_owned P : (forall p, ron (6, 3) p -> P p = wrong_position p) -> forall p, ron (6, 3) p ->
  (P p = Some Black \/ rowned (6, 3) P Black p <-> fst p < 3) /\ (P p = Some White \/ rowned (6, 3) P White p <-> 3 <= fst p).
Proof.
  intros HP p Hp.
  assert (T : P p = None -> forall c, rtouches (6, 3) P p c -> c = if fst p <? 3 then Black else White).
  { intros Hn c (q & r & Hq & Hr & Ha & Hc). destruct (wrong_regions P HP p q Hq Hp Hn) as (Hqo & Hqn & L1 & L2).
    rewrite HP in Hc, Hn, Hqn by assumption. clear -Hp Hr Ha Hc Hn Hqn Hqo L1 L2.
    destruct p as [a b], q as [u v], r as [x y]. unfold ron, adj, wrong_position in *. cbn [fst snd] in *.
    destruct (Nat.ltb_spec a 3).
    - specialize (L1 ltac:(lia)). injection L1 as -> ->.
      destruct (Nat.eqb_spec a 0), (Nat.eqb_spec b 1); cbn in Hn; try discriminate.
      destruct (Nat.ltb_spec x 3); [|lia]. destruct ((x =? 0) && negb (y =? 1)); congruence.
    - destruct (Nat.eqb_spec a 3); [discriminate|]. specialize (L2 ltac:(lia)).
      destruct (Nat.ltb_spec x 3); [lia|]. destruct (x =? 3); congruence. }
  assert (S : P p = None -> fst p < 3 -> rtouches (6, 3) P p Black).
  { intros Hn Hl. exists p, (1, snd p). split; [apply rtc_refl|]. rewrite HP in Hn by exact Hp.
    destruct p as [a b]. unfold ron, adj, wrong_position in *. cbn [fst snd] in *.
    assert (a = 0) as ->. { destruct (Nat.ltb_spec a 3); [|lia]. destruct (Nat.eqb_spec a 0); [assumption|discriminate]. }
    split; [lia|]. split; [lia|]. rewrite HP by (unfold ron; cbn; lia). reflexivity. }
  assert (S' : P p = None -> 3 <= fst p -> rtouches (6, 3) P p White).
  { intros Hn Hl. exists (4, snd p), (3, snd p). destruct p as [a b]. unfold ron in Hp. cbn [fst snd] in *.
    assert (H34 : P (4, b) = None) by (rewrite HP by (unfold ron; cbn; lia); reflexivity).
    split; [|split; [unfold ron; cbn; lia|split; [unfold adj; cbn; lia|rewrite HP by (unfold ron; cbn; lia); reflexivity]]].
    assert (a = 4 \/ a = 5) as [->| ->].
    { rewrite HP in Hn by (unfold ron; cbn; lia). unfold wrong_position in Hn. cbn [fst snd] in Hn.
      destruct (Nat.ltb_spec a 3); [lia|]. destruct (Nat.eqb_spec a 3); [discriminate|]. lia. }
    - apply rtc_refl.
    - apply rtc_once. split; [unfold ron; cbn; lia|]. split; [unfold ron; cbn; lia|]. split; [unfold adj; cbn; lia|congruence]. }
  assert (N1 : P p = Some Black -> fst p < 3).
  { intros H. rewrite HP in H by exact Hp. unfold wrong_position in H. destruct (Nat.ltb_spec (fst p) 3); [assumption|]. destruct (fst p =? 3); discriminate. }
  assert (N2 : P p = Some White -> 3 <= fst p).
  { intros H. rewrite HP in H by exact Hp. unfold wrong_position in H. destruct (Nat.ltb_spec (fst p) 3); [|assumption]. destruct (_ && _); discriminate. }
  split; split.
  - intros [H|(_ & Hn & Ht & _)]; [exact (N1 H)|]. pose proof (T Hn _ Ht) as E. destruct (Nat.ltb_spec (fst p) 3); [assumption|discriminate].
  - intros Hl. destruct (P p) as [[]|] eqn:E; [pose proof (N2 eq_refl); lia|left; reflexivity|right].
    split; [exact Hp|]. split; [exact E|]. split; [exact (S eq_refl Hl)|]. intros K. apply (T eq_refl) in K. apply Nat.ltb_lt in Hl. rewrite Hl in K. discriminate.
  - intros [H|(_ & Hn & Ht & _)]; [exact (N2 H)|]. pose proof (T Hn _ Ht) as E. destruct (Nat.ltb_spec (fst p) 3); [discriminate|assumption].
  - intros Hl. destruct (P p) as [[]|] eqn:E; [left; reflexivity|pose proof (N1 eq_refl); lia|right].
    split; [exact Hp|]. split; [exact E|]. split; [exact (S' eq_refl Hl)|]. intros K. apply (T eq_refl) in K. apply Nat.ltb_ge in Hl. rewrite Hl in K. discriminate.
Qed.

Lemma card_rows (D : coord -> Prop) a b : (forall p, D p -> ron (6, 3) p) -> (forall p, ron (6, 3) p -> D p <-> a <= fst p < a + b) -> a + b <= 6 ->
  card D (b * 3).
Proof.
  intros H1 H2 L. exists (list_prod (seq a b) (seq 0 3)). split; [|split].
  - apply NoDup_list_prod; apply NoDup_ListNoDup, seq_NoDup.
  - intros p. rewrite elem_of_list_In. destruct p as [x y]. etransitivity; [exact (in_prod_iff (seq a b) (seq 0 3) x y)|]. rewrite !in_seq. split.
    + intros [Hx Hy]. apply H2; [unfold ron; cbn; lia|cbn; lia].
    + intros HD. pose proof (H1 _ HD) as Hr. apply (H2 _ Hr) in HD. unfold ron in Hr. cbn in *. lia.
  - etransitivity; [exact (prod_length (seq a b) (seq 0 3))|]. rewrite !seq_length. reflexivity.
Qed.

Theorem wrong_winner dbg : exists g b w,
  rgreach dbg (6, 3) b w g /\ gm_rule g = CHINESE /\ gm_passes g = 2 /\
  card (fun p => position g p = Some Black /\ ron (6, 3) p \/ rowned (6, 3) (position g) Black p) 9 /\
  card (fun p => position g p = Some White /\ ron (6, 3) p \/ rowned (6, 3) (position g) White p) 9 /\
  komi g = f32_make 15 (-1) /\
  forall order, (forall l, order l ≡ₚ l) -> outcome order dbg g = Ok (Some (WinnerByScore Black (f32_make 13 (-1)))).
Proof.
  destruct (rsample dbg 6 3 CHINESE wrong_moves) as [g|] eqn:E; [|destruct dbg; vm_compute in E; discriminate].
  assert (K : match rsample dbg 6 3 CHINESE wrong_moves with
     | Some g => Some (outcome (fun l => l) dbg g, forallb (fun p => has g p (wrong_position p)) (rpoints (6, 3)), gm_passes g, gm_rule g)
     | None => None end = Some (Ok (Some (WinnerByScore Black (f32_make 13 (-1)))), true, 2, CHINESE)) by (destruct dbg; vm_compute; reflexivity).
  rewrite E in K. injection K as K1 K2 K3 K4.
  destruct (rsample_reach dbg 6 3 CHINESE _ g ltac:(lia) ltac:(lia) E) as (b & w & HG & _).
  assert (Hd : Nat.divide 3 6) by (exists 2; reflexivity).
  pose proof (rgi_wf _ _ _ _ (rgreach_inv dbg (6, 3) b w g Hd HG)) as W.
  assert (HP : forall p, ron (6, 3) p -> position g p = wrong_position p).
  { intros p Hp. change (forallb (fun p => has g p (wrong_position p)) (rpoints (6, 3)) = true) in K2. rewrite forallb_forall in K2. apply elem_of_rpoints, elem_of_list_In in Hp. exact (bool_decide_eq_true_1 _ (K2 p Hp)). }
  exists g, b, w. split; [exact HG|]. split; [exact K4|]. split; [exact K3|].
  split.
  { change 9 with (3 * 3). apply (card_rows _ 0); [|intros p Hp|lia].
    - intros p [[_ Hp]|[Hp _]]; exact Hp.
    - pose proof (proj1 (wrong_owned _ HP p Hp)). cbn. split; [intros [[H1 _]|H1]; [assert (fst p < 3) by tauto|assert (fst p < 3) by tauto]; lia|intros [_ H1]].
      apply H in H1 as [H1|H1]; [left; auto|right; exact H1]. }
  split.
  { change 9 with (3 * 3). apply (card_rows _ 3); [|intros p Hp|lia].
    - intros p [[_ Hp]|[Hp _]]; exact Hp.
    - pose proof (proj2 (wrong_owned _ HP p Hp)). assert (fst p < 6) by (destruct Hp; assumption).
      cbn. split; [intros [[H1 _]|H1]; [assert (3 <= fst p) by tauto|assert (3 <= fst p) by tauto]; lia|intros [H1 _]].
      apply H in H1 as [H1|H1]; [left; auto|right; exact H1]. }
  split; [unfold komi; rewrite K4; reflexivity|].
  intros order Ho. etransitivity; [|exact K1]. unfold outcome, calculate_score, calculate_score_by.
  rewrite (rterritory_order order dbg (6, 3) (gm_goban g) 2 W eq_refl Ho). reflexivity.
Qed.
