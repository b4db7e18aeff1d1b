(** Enumerations and other views of a board. *)
From stdpp Require Import sorting.
From Verif Require Import Spec Observe Game CoordFacts BitsetFacts Struct Inv Bridge MonadFacts GameFacts RulesFacts BoardFacts ApiFacts.

Local Notation length := Datatypes.length.

Lemma sorted_row_major l : StronglySorted rm_lt l -> StronglySorted row_major l.
Proof. exact (fun H => H). Qed.

Lemma enumerations n g : wf n g ->
  exists ss es, get_stones g = Ok ss /\ get_empty_coords g = Ok es /\
    StronglySorted row_major ss.*1 /\ StronglySorted row_major es /\
    (forall p c, (p, c) ∈ ss <-> on n p /\ pos_of g p = Some c) /\
    (forall p, p ∈ es <-> on n p /\ pos_of g p = None) /\
    ss.*1 ++ es ≡ₚ points n.
Proof.
  intros W. eexists _, _. split; [apply (get_stones_ok n g W)|]. split; [apply (get_empty_coords_ok n g W)|].
  split; [apply sorted_row_major, sorted_stones|].
  split; [apply sorted_row_major, sorted_lfilter, points_sorted|].
  split; [intros p c; apply elem_of_stones_in|].
  split.
  { intros p. rewrite elem_of_lfilter, elem_of_points. destruct (pos_of g p); cbn; intuition discriminate. }
  rewrite stones_in_fst. clear W. induction (points n) as [|p l IH]; cbn [List.filter app]; [reflexivity|].
  destruct (pos_of g p); cbn [is_none List.filter app].
  - constructor. exact IH.
  - rewrite <- Permutation_middle. constructor. exact IH.
Qed.

Lemma vec_ok dbg n g : wf n (gm_goban g) ->
  ((n <= 15)%nat \/ dbg = false -> exists l, pseudo_legals_vec dbg g = Ok l /\ pseudo_legals g = Ok l) /\
  ((16 <= n)%nat -> dbg = true -> pseudo_legals_vec dbg g = Panic).
Proof.
  intros W. unfold pseudo_legals_vec, pseudo_legals. rewrite (wf_size n _ W).
  pose proof (wf_n n _ W) as Hn.
  assert (F : filterM (fun p => let! cell := vget (board (gm_goban g)) (two_to_1dim (n, n) p) in
                    Ok (match cell with None => true | Some _ => false end))
          (list_prod (seq 0 n) (seq 0 n)) = Ok (List.filter (fun p => is_none (pos_of (gm_goban g) p)) (points n))).
  { apply filterM_ok. intros p Hp. apply elem_of_points in Hp as Hp'.
    pose proof (get_color_pos n _ p W Hp') as E. unfold get_color, get_color_idx in E. rewrite (wf_size n _ W) in E.
    destruct (vget (board (gm_goban g)) (two_to_1dim (n, n) p)) as [[k|]| |]; cbn [bind] in *; [|injection E as <-; reflexivity|discriminate..].
    destruct (chain_at _ _); cbn [bind] in E; [|discriminate..]. injection E as <-. reflexivity. }
  unfold u8_mul. split.
  - intros Hs. eexists. split; [|apply (get_empty_coords_ok n _ W)].
    destruct (Nat.ltb_spec (n * n) 256) as [L|L]; cbn [bind].
    + exact F.
    + destruct Hs as [Hs| ->]; [nia|]. cbn [bind]. exact F.
  - intros H16 ->. destruct (Nat.ltb_spec (n * n) 256) as [L|L]; [nia|]. reflexivity.
Qed.

Lemma empty_idx_ok n g : wf n g ->
  StronglySorted lt (get_empty_idx g) /\
  forall i, i ∈ get_empty_idx g <-> exists p, on n p /\ i = index n p /\ pos_of g p <> None.
Proof.
  intros W. unfold get_empty_idx. rewrite (zip_board n g W).
  assert (E : omap (fun '(i, cell) => match cell with Some _ => Some i | None => None end)
               (List.map (fun i => (i, cell g i)) (seq 0 361)) =
              List.filter (fun i => negb (is_none (cell g i))) (seq 0 361)).
  { induction (seq 0 361) as [|i l IH]; cbn; [reflexivity|]. destruct (cell g i); cbn; rewrite <- IH; reflexivity. }
  rewrite E. split.
  { apply sorted_lfilter. clear. generalize 0%nat, 361%nat. intros a len. revert a.
    induction len as [|len IH]; intros a; cbn; constructor; [apply IH|]. apply Forall_forall. intros x Hx.
    apply elem_of_seq in Hx. lia. }
  intros i. rewrite elem_of_lfilter, elem_of_seq. split.
  - intros [H1 H2]. destruct (cell g i) as [k|] eqn:Ec; [|discriminate].
    pose proof (wf_on n g W i k Ec) as Hi.
    exists (pt n i). pose proof (wf_n n g W) as Hn. assert (On : on n (pt n i)).
    { unfold pt, on. cbn. split; [apply Nat.div_lt_upper_bound; lia|apply Nat.mod_upper_bound; lia]. }
    assert (Ei : i = index n (pt n i)) by (unfold index, pt; cbn; rewrite (Nat.div_mod i n) at 1 by lia; lia).
    split; [exact On|]. split; [exact Ei|].
    apply (group_no_some n g _ W On). exists k. rewrite (group_no_cell n g _ W). change (idx n (pt n i)) with (index n (pt n i)).
    rewrite <- Ei. exact Ec.
  - intros (p & On & -> & Hp). apply (group_no_some n g _ W On) in Hp as [k Hk].
    rewrite (group_no_cell n g _ W) in Hk. change (index n p) with (idx n p). rewrite Hk. split; [|reflexivity].
    pose proof (wf_n n g W) as Hn. destruct p as [r c]. destruct On as [Or Oc]. cbn in Or, Oc.
    pose proof (idx_bound n r c Or Oc). unfold idx. cbn. nia.
Qed.

Lemma by_color_api dbg n g mc : wf n g ->
  ((16 <= n)%nat -> dbg = true -> get_coords_by_color dbg g mc = Panic /\ get_stones_by_color dbg g mc = Panic) /\
  ((n <= 15)%nat \/ dbg = false -> exists l,
     get_coords_by_color dbg g mc = Ok l /\ get_stones_by_color dbg g mc = Ok (List.map (fun p => (p, mc)) l) /\
     StronglySorted row_major l /\
     forall p, p ∈ l <-> on n p /\ (index n p < (n * n) mod 256)%nat /\ (mc = None \/ pos_of g p = mc)).
Proof.
  intros W. pose proof (wf_n n g W) as Hn. unfold get_stones_by_color.
  destruct (by_color_ok dbg n g mc W) as [(D & Hb & E)|(D & E)]; rewrite E; cbn [bind].
  - split; [auto|]. intros [H|H]; [nia|congruence].
  - split; [intros H1 H2; destruct D; [congruence|nia]|]. intros _. eexists. split; [reflexivity|]. split; [reflexivity|].
    assert (T : forall k l, StronglySorted rm_lt l -> StronglySorted rm_lt (take k l)).
    { clear. intros k l H. revert k. induction H as [|a l Hl IH Ha]; intros [|k]; cbn; constructor; [apply IH|].
      apply Forall_take. exact Ha. }
    split; [apply sorted_row_major, sorted_lfilter, T, points_sorted|].
    intros p. rewrite elem_of_lfilter, points_seq.
    assert (Hk : ((n * n) mod 256 <= n * n)%nat) by (apply Nat.mod_le; lia).
    set (k := ((n * n) mod 256)%nat) in *.
    replace (take k (List.map (pt n) (seq 0 (n * n)))) with (List.map (pt n) (seq 0 k)).
    2:{ replace (seq 0 (n * n)) with (seq 0 k ++ seq k (n * n - k)) by (rewrite <- seq_app; f_equal; lia).
        rewrite List.map_app, take_app_le by (rewrite map_length, seq_length; lia).
        rewrite take_ge; [reflexivity|]. rewrite map_length, seq_length. lia. }
    assert (Hel : p ∈ List.map (pt n) (seq 0 k) <-> on n p /\ (index n p < k)%nat).
    { rewrite elem_of_list_In, List.in_map_iff. split.
      - intros (i & <- & Hi). apply elem_of_list_In, elem_of_seq in Hi.
        assert (Ei : index n (pt n i) = i) by (unfold index, pt; cbn; rewrite (Nat.div_mod i n) at 3 by lia; lia).
        rewrite Ei. split; [|lia]. unfold pt, on. cbn. split; [apply Nat.div_lt_upper_bound; lia|apply Nat.mod_upper_bound; lia].
      - intros [[O1 O2] Hi]. exists (index n p). split.
        + unfold pt, index. destruct p as [r c]. cbn in *. destruct (divmod_idx n r c O2) as [-> ->]. reflexivity.
        + apply elem_of_list_In, elem_of_seq. lia. }
    rewrite Hel, orb_true_iff.
    assert (Hm : is_none mc = true <-> mc = None) by (destruct mc; cbn; split; congruence).
    rewrite Hm. destruct (mcolor_eqb_spec (pos_of g p) mc); intuition congruence.
Qed.

Lemma index_pt n i : (1 <= n)%nat -> index n (pt n i) = i.
Proof. intros H. unfold index, pt. cbn. rewrite (Nat.div_mod i n) at 3 by lia. lia. Qed.

Lemma pt_on n i : (i < n * n)%nat -> on n (pt n i).
Proof. intros H. unfold pt, on. cbn. split; [apply Nat.div_lt_upper_bound; lia|apply Nat.mod_upper_bound; lia]. Qed.

Lemma index_on n p : on n p -> (index n p < n * n)%nat.
Proof. destruct p as [r c]. intros [H1 H2]. cbn in *. unfold index. cbn. nia. Qed.

Lemma index_inj n p q : on n p -> on n q -> index n p = index n q -> p = q.
Proof.
  intros H1 H2 E. rewrite <- (pt_idx n p), <- (pt_idx n q) by assumption. unfold idx. unfold index in E. rewrite E. reflexivity.
Qed.

Lemma matrix_api n g : wf n g ->
  exists m, matrix g = Ok m /\ length m = (361 / n)%nat /\ (n <= 361 / n)%nat /\
    (forall row, row ∈ m -> length row = n) /\
    (forall i j row, on n (i, j) -> m !! i = Some row -> row !! j = Some (pos_of g (i, j))) /\
    (forall i row x, (n <= i)%nat -> m !! i = Some row -> x ∈ row -> x = None).
Proof.
  intros W. pose proof (wf_n n g W) as Hn. eexists. split; [apply (matrix_ok n g W)|].
  rewrite map_length, seq_length. split; [reflexivity|]. split; [apply Nat.div_le_lower_bound; nia|].
  split; [|split].
  - intros row Hr. apply elem_of_list_In, List.in_map_iff in Hr as (i & <- & _). rewrite map_length, seq_length. reflexivity.
  - intros i j row [Hi Hj] Hr. cbn in Hi, Hj. change (List.map ?f ?l) with (f <$> l) in Hr.
    apply list_lookup_fmap_Some in Hr as (r & Hr & ->). apply lookup_seq in Hr as [-> _]. cbn [Nat.add] in *.
    change (List.map ?f ?l) with (f <$> l). rewrite list_lookup_fmap, lookup_seq_lt by exact Hj. cbn.
    f_equal. rewrite (pos_of_col n g (i, j) W) by (split; assumption). reflexivity.
  - intros i row x Hi Hr Hx. change (List.map ?f ?l) with (f <$> l) in Hr.
    apply list_lookup_fmap_Some in Hr as (r & Hr & ->). apply lookup_seq in Hr as [-> _]. cbn [Nat.add] in *.
    apply elem_of_list_In, List.in_map_iff in Hx as (j & <- & _). apply (col_off n g _ W). nia.
Qed.

(** ** [From<&[MaybeColor]>] *)

Lemma sqrt_squares : forallb (fun n => (f32_as_u8 (f32_sqrt (f32_of_N (N.of_nat (n * n)))) =? n)%nat) (seq 0 20) = true.
Proof. vm_compute. reflexivity. Qed.

Lemma sqrt_square n : (n <= 19)%nat -> f32_as_u8 (f32_sqrt (f32_of_N (N.of_nat (n * n)))) = n.
Proof.
  intros H. pose proof sqrt_squares as F. rewrite forallb_forall in F. apply Nat.eqb_eq, F, elem_of_list_In, elem_of_seq. lia.
Qed.

(** the stones of a list of colours, read in row-major order *)
Definition listed (n : nat) (v : list (option color)) : list stone :=
  omap (fun '(i, mc) => match mc with Some c => Some (pt n i, c) | None => None end) (zip (seq 0 (length v)) v).

Lemma from_fold dbg n (l : list (nat * option color)) :
  (forall i mc, (i, mc) ∈ l -> one_to_2dim (n, n) i = Ok (pt n i)) -> forall g,
  foldM (fun g '(i, mc) => let! p := one_to_2dim (n, n) i in
           match mc with Some c => push dbg g p c | None => Ok g end) l g =
  foldM (fun g s => push dbg g (fst s) (snd s))
    (omap (fun '(i, mc) => match mc with Some c => Some (pt n i, c) | None => None end) l) g.
Proof.
  induction l as [|[i mc] l IH]; intros H g; [reflexivity|]. cbn [foldM omap list_omap].
  rewrite (H i mc) by left. cbn [bind]. destruct mc as [c|].
  - cbn [foldM fst snd]. destruct (push dbg g (pt n i) c); cbn [bind]; [|reflexivity..].
    apply IH. intros j m Hj. apply (H j m). right. exact Hj.
  - cbn [bind]. apply IH. intros j m Hj. apply (H j m). right. exact Hj.
Qed.

Lemma zip_elem {A} (l : list A) i x : (i, x) ∈ zip (seq 0 (length l)) l <-> l !! i = Some x.
Proof.
  rewrite elem_of_list_lookup. setoid_rewrite lookup_zip_with_Some. setoid_rewrite lookup_seq.
  split.
  - intros (k & a & b & [= -> ->] & [-> _] & H). exact H.
  - intros H. exists i, i, x. split; [reflexivity|]. split; [|exact H]. split; [reflexivity|].
    apply lookup_lt_Some in H. exact H.
Qed.

Lemma elem_of_listed n v p c : length v = (n * n)%nat ->
  (p, c) ∈ listed n v <-> on n p /\ v !! index n p = Some (Some c).
Proof.
  intros Hv. unfold listed. rewrite elem_of_list_omap. split.
  - intros ([i [x|]] & Hi & E); [|discriminate]. injection E as <- <-. apply zip_elem in Hi.
    apply lookup_lt_Some in Hi as Hl. rewrite Hv in Hl. split; [apply pt_on, Hl|].
    rewrite (index_pt n i) by (destruct n; lia). exact Hi.
  - intros [On H]. exists (index n p, Some c). split; [apply zip_elem, H|].
    change (index n p) with (idx n p). rewrite pt_idx by exact On. reflexivity.
Qed.

Lemma NoDup_listed n v : length v = (n * n)%nat -> NoDup (listed n v).*1.
Proof.
  intros Hv. unfold listed.
  assert (Hn : (n = 0 \/ 1 <= n)%nat) by lia. destruct Hn as [->|Hn]; [destruct v; [constructor|discriminate]|].
  cut (forall a, NoDup (omap (fun '(i, mc) => match mc with Some c => Some (pt n i, c) | None => None end) (zip (seq a (length v)) v)).*1
    /\ forall q, q ∈ (omap (fun '(i, mc) => match mc with Some c => Some (pt n i, c) | None => None end) (zip (seq a (length v)) v)).*1 -> (a <= index n q)%nat).
  { intros H. apply H. }
  clear Hv. induction v as [|[c|] v IH]; intros a; cbn [length seq zip zip_with omap list_omap fmap list_fmap].
  - split; [constructor|]. intros q Hq. inversion Hq.
  - destruct (IH (S a)) as [N H]. cbn [fst]. split.
    + constructor; [|exact N]. intros Hq. apply H in Hq. rewrite (index_pt n a Hn) in Hq. lia.
    + intros q Hq. apply elem_of_cons in Hq as [->|Hq]; [rewrite (index_pt n a Hn); lia|]. apply H in Hq. lia.
  - destruct (IH (S a)) as [N H]. split; [exact N|]. intros q Hq. apply H in Hq. lia.
Qed.

Lemma find_listed n v p : length v = (n * n)%nat -> on n p ->
  match List.find (fun s : stone => coord_eqb (fst s) p) (listed n v) with Some s => Some (snd s) | None => None end
  = mjoin (v !! index n p).
Proof.
  intros Hv On. set (f := fun s : stone => coord_eqb (fst s) p).
  destruct (List.find f (listed n v)) as [[q c]|] eqn:E.
  - apply List.find_some in E as [Hi Hf]. apply coord_eqb_eq in Hf. cbn in Hf. subst q.
    apply elem_of_list_In, (elem_of_listed n v p c Hv) in Hi as [_ ->]. reflexivity.
  - destruct (v !! index n p) as [[c|]|] eqn:El; try reflexivity. cbn.
    assert (Hi : (p, c) ∈ listed n v) by (apply (elem_of_listed n v p c Hv); auto).
    apply elem_of_list_In in Hi. pose proof (List.find_none _ _ E _ Hi) as Hf. unfold f in Hf. cbn in Hf.
    assert (coord_eqb p p = true) by (apply coord_eqb_eq; reflexivity). congruence.
Qed.

Lemma omap_length {A B} (f : A -> option B) l : (length (omap f l) <= length l)%nat.
Proof. induction l as [|x l IH]; cbn; [lia|]. destruct (f x); cbn; lia. Qed.

Lemma listed_length n v : (length (listed n v) <= length v)%nat.
Proof.
  unfold listed. etransitivity; [apply omap_length|]. rewrite zip_with_length_l; rewrite seq_length; lia.
Qed.

Lemma goban_from_ok dbg n v : (1 <= n <= 19)%nat -> length v = (n * n)%nat ->
  exists g, goban_from dbg v = Ok g /\ wf n g /\ forall p, on n p -> pos_of g p = mjoin (v !! index n p).
Proof.
  intros Hn Hv. unfold goban_from. rewrite Hv, sqrt_square by lia.
  destruct (new_wf n Hn) as (g0 & E0 & W0 & C0 & Z0). rewrite E0. cbn [bind].
  rewrite from_fold. 2:{ intros i mc Hi. rewrite <- Hv in Hi. apply zip_elem, lookup_lt_Some in Hi. rewrite Hv in Hi.
    apply one_to_2dim_sq; [lia|exact Hi]. }
  rewrite <- Hv. fold (listed n v).
  assert (P0 : forall p, on n p -> pos_of g0 p = None) by (intros p On; apply (pos_new n g0 p W0 Z0 On)).
  destruct (push_list_wf dbg n (listed n v) g0 W0 (NoDup_listed n v Hv)) as [[_ F]|(g & E & W & Hp & _)].
  - intros [q c] Hq. apply (elem_of_listed n v q c Hv) in Hq as [On _]. split; [exact On|apply P0, On].
  - exfalso. rewrite C0 in F. pose proof (listed_length n v). cbn in F. nia.
  - exists g. split; [exact E|]. split; [exact W|]. intros p On. rewrite (Hp p On), (P0 p On). apply (find_listed n v p Hv On).
Qed.

Lemma to_vec_api n g : wf n g ->
  exists v, to_vec g = Ok v /\ length v = 361%nat /\
    (forall p, on n p -> v !! index n p = Some (pos_of g p)) /\
    (forall i x, (n * n <= i)%nat -> v !! i = Some x -> x = None).
Proof.
  intros W. pose proof (wf_n n g W) as Hn. eexists. split; [apply (to_vec_ok n g W)|].
  assert (L : length (List.map (pos_of g) (points n)) = (n * n)%nat) by (rewrite map_length; apply points_length).
  split; [rewrite app_length, replicate_length, L; nia|]. split.
  - intros p On. pose proof (index_on n p On) as Hi. rewrite lookup_app_l by (unfold length in *; lia).
    rewrite points_seq. change (List.map ?f ?l) with (f <$> l). rewrite !list_lookup_fmap, lookup_seq_lt by exact Hi. cbn.
    change (index n p) with (idx n p). rewrite pt_idx by exact On. reflexivity.
  - intros i x Hi Hx. rewrite lookup_app_r in Hx by lia. apply lookup_replicate in Hx as [-> _]. reflexivity.
Qed.

Lemma round_trip dbg n g : wf n g ->
  exists v b, to_vec g = Ok v /\ goban_from dbg v = Ok b /\ gsize b = (19, 19)%nat /\ goban_eq b g = Ok (n =? 19)%nat.
Proof.
  intros W. pose proof (wf_n n g W) as Hn. destruct (to_vec_api n g W) as (v & Ev & Lv & Hv & _).
  destruct (goban_from_ok dbg 19 v ltac:(lia) Lv) as (b & Eb & Wb & Hb).
  exists v, b. split; [exact Ev|]. split; [exact Eb|]. split; [apply (wf_size 19 b Wb)|].
  destruct (Nat.eqb_spec n 19) as [->|Hne].
  - destruct (eq_api 19 b g Wb W) as (x & Ex & Hx & _). rewrite Ex. f_equal. apply Hx.
    intros p On. rewrite (Hb p On), (Hv p On). reflexivity.
  - unfold goban_eq. rewrite (wf_size n g W), (wf_size 19 b Wb). cbn [fst snd].
    destruct (Nat.eqb_spec 19 n); [congruence|]. reflexivity.
Qed.

(** ** Coordinates *)

Lemma coords_bijection n : (1 <= n <= 19)%nat ->
  (forall p, on n p -> (two_to_1dim (n, n) p < n * n)%nat /\ one_to_2dim (n, n) (two_to_1dim (n, n) p) = Ok p) /\
  (forall i, (i < n * n)%nat -> exists p, one_to_2dim (n, n) i = Ok p /\ on n p /\ two_to_1dim (n, n) p = i) /\
  (forall p q, on n p -> on n q -> (two_to_1dim (n, n) p < two_to_1dim (n, n) q)%nat <-> row_major p q).
Proof.
  intros Hn. split; [|split].
  - intros [r c] On. rewrite two_idx. pose proof (index_on n (r, c) On) as Hi. unfold index in Hi. cbn in Hi.
    split; [exact Hi|]. rewrite (one_to_2dim_sq n _ Hn Hi). f_equal. apply (pt_idx n (r, c) On).
  - intros i Hi. exists (pt n i). split; [apply (one_to_2dim_sq n i Hn Hi)|]. split; [apply pt_on, Hi|].
    unfold pt. apply two_one_sq. lia.
  - intros [r c] [r' c'] [O1 O2] [O3 O4]. rewrite !two_idx. unfold row_major. cbn in *. split.
    + intros H. destruct (Nat.lt_trichotomy r r') as [?|[->|?]]; [lia|lia|nia].
    + intros [?|[-> ?]]; [nia|lia].
Qed.

Lemma neighbours_api dbg n p : (1 <= n <= 19)%nat -> on n p ->
  exists l, valid_coords dbg p (n, n) = Ok l /\ NoDup l /\ (forall q, q ∈ l <-> on n q /\ adj p q) /\
    neighbors_idx dbg (n, n) (two_to_1dim (n, n) p) = Ok (List.map (two_to_1dim (n, n)) l).
Proof.
  intros Hn On. exists (nbrs n p). split; [apply valid_coords_ok; assumption|]. split; [apply NoDup_nbrs|].
  split; [intros q; apply elem_of_nbrs, On|]. unfold neighbors_idx.
  destruct (proj1 (coords_bijection n Hn) p On) as [_ ->]. cbn [bind]. rewrite valid_coords_ok by assumption. reflexivity.
Qed.

(** ** The printed board *)

Definition row_of (n : nat) (P : pos) (i : nat) : list glyph := List.map (glyph_at n P i) (seq 0 n) ++ [NewLine].

Lemma concat_rows_inj {A} (m : nat) (l l' : list (list A)) :
  (forall x, x ∈ l -> length x = m) -> (forall x, x ∈ l' -> length x = m) -> length l = length l' ->
  List.concat l = List.concat l' -> l = l'.
Proof.
  revert l'. induction l as [|x l IH]; intros [|x' l'] H H' L E; try discriminate; [reflexivity|].
  cbn in E. apply app_inj_1 in E as [-> E]; [|rewrite (H x), (H' x') by left; reflexivity].
  f_equal. apply IH; [intros y Hy; apply H; right; exact Hy|intros y Hy; apply H'; right; exact Hy|cbn in L; lia|exact E].
Qed.

Lemma concat_len {A} (m : nat) (l : list (list A)) : (forall x, x ∈ l -> length x = m) -> length (List.concat l) = (length l * m)%nat.
Proof.
  induction l as [|x l IH]; intros H; cbn; [reflexivity|]. rewrite app_length, (H x) by left.
  rewrite IH by (intros y Hy; apply H; right; exact Hy). reflexivity.
Qed.

Lemma row_len n P i : length (row_of n P i) = S n.
Proof. unfold row_of. rewrite app_length, map_length, seq_length. cbn. lia. Qed.

Lemma glyph_stone n P Q i j : glyph_at n P i j = glyph_at n Q i j -> P (i, j) = Q (i, j).
Proof.
  unfold glyph_at, empty_glyph. destruct (P (i, j)) as [[]|], (Q (i, j)) as [[]|]; try reflexivity; try discriminate;
  destruct (i =? 0)%nat, (i =? n - 1)%nat, (j =? 0)%nat, (j =? n - 1)%nat; discriminate.
Qed.

Lemma pretty_rows n g : wf n g -> exists rows, pretty_string g = Ok (List.concat rows) /\ length rows = n /\
  forall i, (i < n)%nat -> exists row, rows !! i = Some (row ++ [NewLine]) /\ length row = n /\
    forall j, (j < n)%nat -> exists x, row !! j = Some x /\ x <> NewLine /\
      (x = BlackDisc <-> pos_of g (i, j) = Some Black) /\ (x = WhiteDisc <-> pos_of g (i, j) = Some White).
Proof.
  intros W. exists (List.map (row_of n (pos_of g)) (seq 0 n)). split; [apply (pretty_ok n g W)|].
  split; [rewrite map_length, seq_length; reflexivity|]. intros i Hi.
  exists (List.map (glyph_at n (pos_of g) i) (seq 0 n)). split.
  { change (List.map ?f ?l) with (f <$> l). rewrite list_lookup_fmap, lookup_seq_lt by exact Hi. reflexivity. }
  split; [rewrite map_length, seq_length; reflexivity|]. intros j Hj.
  exists (glyph_at n (pos_of g) i j). split.
  { change (List.map ?f ?l) with (f <$> l). rewrite list_lookup_fmap, lookup_seq_lt by exact Hj. reflexivity. }
  unfold glyph_at, empty_glyph. destruct (pos_of g (i, j)) as [[]|]; try (split; [discriminate|split; split; congruence]).
  destruct (i =? 0)%nat, (i =? n - 1)%nat, (j =? 0)%nat, (j =? n - 1)%nat; split; try discriminate; split; split; discriminate.
Qed.

Lemma pretty_inj n m a b : wf n a -> wf m b -> pretty_string a = pretty_string b -> n = m /\ same_pos n (pos_of a) (pos_of b).
Proof.
  intros Wa Wb E. rewrite (pretty_ok n a Wa), (pretty_ok m b Wb) in E. injection E as E.
  fold (row_of n (pos_of a)) in E. fold (row_of m (pos_of b)) in E.
  assert (La : forall (k : nat) P x, x ∈ List.map (row_of k P) (seq 0 k) -> length x = S k).
  { intros k P x Hx. apply elem_of_list_In, List.in_map_iff in Hx as (i & <- & _). apply row_len. }
  assert (Enm : n = m).
  { apply (f_equal length) in E. rewrite (concat_len (S n)), (concat_len (S m)), !map_length, !seq_length in E by apply La. nia. }
  subst m. split; [reflexivity|]. apply (concat_rows_inj (S n)) in E; [|apply La..|rewrite !map_length; reflexivity].
  intros [i j] [Hi Hj]. cbn in Hi, Hj. apply (glyph_stone n).
  apply (f_equal (fun l => l !! i)) in E. change (List.map ?f ?l) with (f <$> l) in E. rewrite !list_lookup_fmap, !lookup_seq_lt in E by exact Hi.
  cbn in E. injection E as E. unfold row_of in E. apply app_inj_2 in E as [E _]; [|reflexivity].
  apply (f_equal (fun l => l !! j)) in E. change (List.map ?f ?l) with (f <$> l) in E. rewrite !list_lookup_fmap, !lookup_seq_lt in E by exact Hj.
  cbn in E. injection E as E. exact E.
Qed.

(** ** The bitset through its own interface *)

Lemma bitset_api l : bits_ok l ->
  (forall j, (j < 368)%nat -> exists v, lib_get j l = Ok v) /\
  (forall v j, (368 <= j)%nat -> lib_get j l = Panic /\ lib_set v j l = Panic) /\
  (forall v j, (j < 368)%nat -> exists l', lib_set v j l = Ok l' /\ bits_ok l' /\ lib_get j l' = Ok v /\
     forall i, (i < 368)%nat -> i <> j -> lib_get i l' = lib_get i l) /\
  (forall l2, bits_ok l2 -> bits_ok (lib_merge l l2) /\
     forall j, (j < 368)%nat -> (lib_get j (lib_merge l l2) = Ok true <-> lib_get j l = Ok true \/ lib_get j l2 = Ok true)) /\
  exists ones, lib_iter_ones l = Ok ones /\ StronglySorted lt ones /\
    (forall j, j ∈ ones <-> (j < 368)%nat /\ lib_get j l = Ok true) /\
    lib_count_ones l = length ones /\ (lib_any l = true <-> ones <> []).
Proof.
  intros B. split; [|split; [|split; [|split]]].
  - intros j Hj. eexists. apply (lib_get_spec l j B Hj).
  - intros v j Hj. destruct B as [Hlen _]. assert (Hd : (length l <= j / BITS)%nat) by (rewrite Hlen; unfold BITS; apply Nat.div_le_lower_bound; lia).
    apply lookup_ge_None in Hd. unfold lib_get, lib_set, vget. rewrite Hd. split; reflexivity.
  - intros v j Hj. destruct (lib_set_spec v l j B Hj) as (l' & E & B' & H). exists l'. split; [exact E|]. split; [exact B'|].
    split; [rewrite (lib_get_spec l' j B' Hj), H, Nat.eqb_refl; reflexivity|].
    intros i Hi Hne. rewrite (lib_get_spec l' i B' Hi), (lib_get_spec l i B Hi), H. destruct (Nat.eqb_spec i j); congruence.
  - intros l2 B2. destruct (lib_merge_spec l l2 B B2) as [B3 H]. split; [exact B3|].
    intros j Hj. rewrite (lib_get_spec _ j B3 Hj), (lib_get_spec _ j B Hj), (lib_get_spec _ j B2 Hj), H.
    destruct (lbit l j), (lbit l2 j); cbn; intuition congruence.
  - exists (lib_list l). split; [apply (lib_iter_ones_spec l B)|]. split.
    { unfold lib_list. apply sorted_lfilter. clear. generalize 0%nat, 368%nat. intros a len. revert a.
      induction len as [|len IH]; intros a; cbn; constructor; [apply IH|]. apply Forall_forall. intros x Hx. apply elem_of_seq in Hx. lia. }
    assert (Hel : forall j, j ∈ lib_list l <-> (j < 368)%nat /\ lib_get j l = Ok true).
    { intros j. rewrite (elem_of_lib_list l j B). split.
      - intros H. pose proof (lbit_bound l j B H) as Hj. split; [exact Hj|]. rewrite (lib_get_spec l j B Hj), H. reflexivity.
      - intros [Hj H]. rewrite (lib_get_spec l j B Hj) in H. congruence. }
    split; [exact Hel|]. split; [apply (lib_count_ones_spec l B)|]. rewrite (lib_any_spec l B). split.
    + intros [j Hj] E. apply (elem_of_lib_list l j B) in Hj. rewrite E in Hj. inversion Hj.
    + intros H. destruct (lib_list l) as [|j t] eqn:E; [congruence|]. exists j. apply (elem_of_lib_list l j B). rewrite E. left.
Qed.
