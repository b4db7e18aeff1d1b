(** [From<&[MaybeColor]>] (src/pieces/goban.rs:37-51) for lists of every length. *)
From stdpp Require Import relations.
From Verif Require Import MonadFacts Goban Game BitsetFacts CoordFacts Struct Push Inv Remove Capture BoardFacts GameFacts BoundsFacts ViewFacts Float32 FromSqrt Refine AnySpec AnyBoard AnyGame AnyViews Samples.
From Coq Require Import Lia.

Local Notation length := Datatypes.length.

(** the loop of [goban_from] *)
Notation from_loop dbg n i l g :=
  (foldM (fun gb '(ix, mc) =>
           let! p := one_to_2dim (n, n) ix in
           match mc with
           | Some c => push dbg gb p c
           | None => Ok gb
           end) (zip (seq i (length l)) l) g).

Lemma one_to_2dim_n n i : (1 <= n)%nat -> (i / n < 256)%nat -> (n <= 19)%nat -> one_to_2dim (n, n) i = Ok (i / n, i mod n)%nat.
Proof.
  intros Hn Hi Hm. unfold one_to_2dim. cbn [fst snd]. destruct (Nat.eqb_spec n 0); [lia|]. cbn [orb]. unfold as_u8.
  rewrite (Nat.mod_small (i / n) 256) by exact Hi. rewrite (Nat.mod_small (i mod n) 256); [reflexivity|]. pose proof (Nat.mod_upper_bound i n). lia.
Qed.

Lemma idx_n n i : (1 <= n)%nat -> two_to_1dim (n, n) (i / n, i mod n)%nat = i.
Proof. intros Hn. unfold two_to_1dim. cbn [fst snd]. pose proof (Nat.div_mod i n). lia. Qed.

Lemma from_loop_release n : (1 <= n <= 19)%nat -> forall l i g,
  awf (n, n) g -> (length (chains g) <= i)%nat -> (forall j, (i <= j)%nat -> col g j = None) ->
  ((i + length l) / n < 256)%nat -> (i + length l < 400)%nat ->
  (exists k c, l !! k = Some (Some c) /\ (361 <= i + k)%nat) /\ from_loop false n i l g = Panic \/
  (forall k c, l !! k = Some (Some c) -> (i + k < 361)%nat) /\ exists g', from_loop false n i l g = Ok g' /\ awf (n, n) g' /\
    forall j, col g' j = if decide (j < i)%nat then col g j else mjoin (l !! (j - i)%nat).
Proof.
  intros Hn. induction l as [|mc l IH]; intros i g W HL HC Hd Hi.
  - right. split; [intros k c Hk; discriminate Hk|]. exists g. split; [reflexivity|]. split; [exact W|].
    intros j. destruct (decide (j < i)%nat); [reflexivity|]. cbn. apply HC. lia.
  - cbn [length] in *. cbn [seq zip zip_with foldM].
    assert (Hin : (i / n < 256)%nat) by (eapply Nat.le_lt_trans; [apply Nat.div_le_mono; [lia|]|exact Hd]; lia).
    rewrite one_to_2dim_n by lia. cbn [bind].
    destruct mc as [c|].
    + destruct (Nat.lt_ge_cases i 361) as [Hlt|Hge].
      * destruct (push_any (n, n) g (i / n, i mod n)%nat c W) as (g1 & dead & u & gu & E & W1 & L1 & _ & _ & _ & _ & C1 & _).
        -- rewrite idx_n by lia. exact Hlt.
        -- rewrite idx_n by lia. apply (col_none_any (n, n) g i W), HC. lia.
        -- lia.
        -- unfold push, debug_assert at 1. cbn [bind]. rewrite E. cbn [bind]. rewrite idx_n in C1 by lia.
           destruct (IH (S i) g1 W1) as [[(k & c' & Hk & Hge) F]|[Hall (g' & F & W' & C')]].
           ++ lia.
           ++ intros j Hj. rewrite C1. destruct (decide (j = i)); [lia|]. apply HC. lia.
           ++ replace (S i + length l)%nat with (i + S (length l))%nat by lia. exact Hd.
           ++ lia.
           ++ left. split; [exists (S k), c'; split; [exact Hk|lia]|exact F].
           ++ right. split.
              ** intros [|k] c' Hk; [lia|]. specialize (Hall k c' Hk). lia.
              ** exists g'. split; [exact F|]. split; [exact W'|]. intros j. rewrite C'.
                 destruct (decide (j < S i)%nat) as [Hj|Hj], (decide (j < i)%nat) as [Hj'|Hj']; try lia.
                 --- rewrite C1. destruct (decide (j = i)); [lia|reflexivity].
                 --- assert (j = i) as -> by lia. rewrite C1. destruct (decide (i = i)); [|congruence]. rewrite Nat.sub_diag. reflexivity.
                 --- replace (j - i)%nat with (S (j - S i)) by lia. reflexivity.
      * left. split; [exists 0%nat, c; split; [reflexivity|lia]|].
        unfold push, debug_assert at 1. cbn [bind]. rewrite push_far; [reflexivity|].
        rewrite (awf_size _ _ W), idx_n, (wf0_next _ (awf_0 _ _ W)) by lia. exact Hge.
    + destruct (IH (S i) g W) as [[(k & c' & Hk & Hge) F]|[Hall (g' & F & W' & C')]].
      * lia.
      * intros j Hj. apply HC. lia.
      * replace (S i + length l)%nat with (i + S (length l))%nat by lia. exact Hd.
      * lia.
      * left. split; [exists (S k), c'; split; [exact Hk|lia]|exact F].
      * right. split.
        -- intros [|k] c' Hk; [discriminate Hk|]. specialize (Hall k c' Hk). lia.
        -- exists g'. split; [exact F|]. split; [exact W'|]. intros j. rewrite C'.
           destruct (decide (j < S i)%nat) as [Hj|Hj], (decide (j < i)%nat) as [Hj'|Hj']; try lia.
           ++ reflexivity.
           ++ assert (j = i) as -> by lia. rewrite Nat.sub_diag. cbn. apply HC. lia.
           ++ replace (j - i)%nat with (S (j - S i)) by lia. reflexivity.
Qed.

(** past the board a debug build accepts no colour *)
Lemma from_loop_tail n g : (1 <= n <= 19)%nat -> gsize g = (n, n) -> forall l i,
  (n * n <= i)%nat -> ((i + length l) / n < 256)%nat ->
  (exists k c, l !! k = Some (Some c)) /\ from_loop true n i l g = Panic \/
  (forall k c, l !! k <> Some (Some c)) /\ forall dbg, from_loop dbg n i l g = Ok g.
Proof.
  intros Hn Hs. induction l as [|mc l IH]; intros i Hi Hd.
  - right. split; [intros k c Hk; discriminate Hk|reflexivity].
  - cbn [length] in *. cbn [seq zip zip_with foldM].
    assert (Hin : (i / n < 256)%nat) by (eapply Nat.le_lt_trans; [apply Nat.div_le_mono; [lia|]|exact Hd]; lia).
    rewrite one_to_2dim_n by lia. cbn [bind]. destruct mc as [c|].
    + left. split; [exists 0%nat, c; reflexivity|]. unfold push, debug_assert at 1. rewrite Hs. cbn [fst snd bind].
      assert (n <= i / n)%nat by (apply Nat.div_le_lower_bound; lia).
      destruct (Nat.ltb_spec (i / n) n); [lia|]. reflexivity.
    + destruct (IH (S i)) as [[(k & c & Hk) F]|[Hall F]].
      * lia.
      * replace (S i + length l)%nat with (i + S (length l))%nat by lia. exact Hd.
      * left. split; [exists (S k), c; exact Hk|exact F].
      * right. split; [intros [|k] c Hk; [discriminate Hk|exact (Hall k c Hk)]|]. exact F.
Qed.

Lemma foldM_app {A B} (f : B -> A -> res B) l1 l2 b : foldM f (l1 ++ l2) b = (let! b' := foldM f l1 b in foldM f l2 b').
Proof.
  revert b. induction l1 as [|x l1 IH]; intros b; [reflexivity|]. cbn [app foldM]. destruct (f b x); [apply IH|reflexivity..].
Qed.

Lemma from_split dbg n m v g : (m <= length v)%nat ->
  from_loop dbg n 0%nat v g = (let! g' := from_loop dbg n 0%nat (take m v) g in from_loop dbg n m (drop m v) g').
Proof.
  intros Hm. rewrite <- foldM_app. f_equal.
  rewrite <- (take_drop m v) at 1 2. rewrite app_length, seq_app, take_length. rewrite Nat.min_l by exact Hm. cbn [Nat.add].
  apply zip_with_app. rewrite seq_length, take_length. lia.
Qed.

Lemma sqrt_le m : (Nat.sqrt m * Nat.sqrt m <= m < S (Nat.sqrt m) * S (Nat.sqrt m))%nat.
Proof. pose proof (Nat.sqrt_spec m). lia. Qed.

Lemma from_long dbg v : (400 <= length v)%nat -> goban_from dbg v = Panic.
Proof.
  intros H. unfold goban_from. pose proof (sqrt_large (N.of_nat (length v)) ltac:(lia)) as H2.
  set (n := f32_as_u8 _) in *. unfold goban_new. cbn [fst snd]. destruct (Nat.leb_spec n 19); [lia|]. reflexivity.
Qed.

Lemma new_board n : (1 <= n <= 19)%nat -> exists g, goban_new (n, n) = Ok g /\ awf (n, n) g /\ chains g = [] /\ forall j, col g j = None.
Proof.
  intros Hn. assert (Hs : size_of (Custom (N.of_nat n) (N.of_nat n)) = (n, n)) by (cbn [size_of]; rewrite N.mod_small, Nat2N.id by lia; reflexivity).
  destruct (new_any (Custom (N.of_nat n) (N.of_nat n)) JAPANESE (n, n)) as (g & E & A); [split; cbn; lia|exact Hs|].
  unfold game_new in E. rewrite Hs in E. destruct (goban_new (n, n)) as [b| |] eqn:Eb; [|discriminate E..]. cbn [bind] in E.
  injection E as <-. pose proof (ai_wf _ _ _ _ A) as W. cbn [gm_goban] in W. exists b. split; [reflexivity|]. split; [exact W|].
  assert (b = mkGoban [] (replicate 361 None) (replicate 361 0%nat) (n, n) 0%N) as ->.
  { unfold goban_new in Eb. destruct (assert_ _); cbn [bind] in Eb; [|discriminate Eb..].
    apply (f_equal (fun r => match r with Ok v => v | _ => b end)) in Eb. symmetry. exact Eb. }
  split; [reflexivity|]. intros j. unfold col, cell. cbn [board]. destruct (Nat.lt_ge_cases j 361).
  - rewrite lookup_replicate_2 by assumption. reflexivity.
  - rewrite lookup_ge_None_2; [reflexivity|]. rewrite replicate_length. assumption.
Qed.

Lemma from_sized dbg v : (length v < 400)%nat -> goban_from dbg v =
  (let! g := goban_new (Nat.sqrt (length v), Nat.sqrt (length v)) in from_loop dbg (Nat.sqrt (length v)) 0%nat v g).
Proof. intros H. unfold goban_from. rewrite sqrt_small by exact H. reflexivity. Qed.

Lemma sqrt_bounds {A} (v : list A) : (1 <= length v < 400)%nat -> (1 <= Nat.sqrt (length v) <= 19)%nat /\ (length v / Nat.sqrt (length v) < 256)%nat.
Proof.
  intros H. pose proof (sqrt_le (length v)). set (n := Nat.sqrt (length v)) in *.
  assert (1 <= n <= 19)%nat by nia. split; [assumption|]. apply Nat.div_lt_upper_bound; nia.
Qed.

Lemma stones_any s g : awf s g -> exists l, get_stones g = Ok l /\
  length l = (icount 19 (col g) Black + icount 19 (col g) White)%nat /\
  forall p c, (p, c) ∈ l <-> exists i, (i < 361)%nat /\ col g i = Some c /\ one_to_2dim s i = Ok p.
Proof.
  intros W. unfold get_stones. pose proof (cells_any s g W) as Hb.
  assert (HZ : zip (seq 0 (length (board g))) (board g) = zip (seq 0 361) (List.map (cell g) (seq 0 361)))
    by (rewrite <- Hb, (wf0_board _ (awf_0 _ _ W)); reflexivity). rewrite HZ. clear HZ Hb.
  rewrite (foldM_collect _ (fun x => match col g (fst x), one_to_2dim s (fst x) with Some c, Ok p => [(p, c)] | _, _ => [] end)).
  - eexists. split; [reflexivity|]. split.
    { cbn [app]. unfold icount. change (seq 0 (19 * 19)) with (seq 0 361). induction (seq 0 361) as [|i l IH]; [reflexivity|].
      change (zip (i :: l) (List.map (cell g) (i :: l))) with ((i, cell g i) :: zip l (List.map (cell g) l)).
      cbn [flat_map fst]. rewrite app_length. etransitivity; [apply f_equal2; [reflexivity|exact IH]|]. rewrite !filter_cons.
      destruct (one_to_2dim_any s i (awf_s _ _ W)) as [q Eq]. rewrite Eq.
      destruct (col g i) as [[|]|]; cbn [length]; repeat case_decide; try congruence; cbn [length]; lia. }
    intros p c. cbn [app]. rewrite elem_of_list_In, in_flat_map. split.
    + intros ([i x] & Hi & H). cbn [fst] in H. apply elem_of_list_In in Hi.
      assert (Hl : i ∈ seq 0 361).
      { apply elem_of_list_lookup in Hi as [k Hk]. apply lookup_zip_with_Some in Hk as (a & b & E & Ha & _). injection E as -> ->.
        apply elem_of_list_lookup. eauto. }
      apply elem_of_seq in Hl. exists i. split; [lia|]. destruct (col g i) as [c'|]; [|destruct H].
      destruct (one_to_2dim s i) as [q| |]; [|destruct H..]. destruct H as [[= -> ->]|[]]. auto.
    + intros (i & Hi & Hc & Hp). exists (i, cell g i). split.
      * apply elem_of_list_In. apply elem_of_list_lookup. exists i. apply lookup_zip_with_Some. exists i, (cell g i).
        split; [reflexivity|]. assert (Hs : seq 0 361 !! i = Some i) by (apply lookup_seq; lia). split; [exact Hs|].
        change (List.map ?f ?l) with (f <$> l). rewrite list_lookup_fmap, Hs. reflexivity.
      * cbn [fst]. rewrite Hc, Hp. left. reflexivity.
  - intros acc [i x] Hx. cbn [fst].
    assert (Hc : x = cell g i).
    { apply elem_of_list_lookup in Hx as [k Hk]. apply lookup_zip_with_Some in Hk as (a & b & E & Ha & Hb'). injection E as -> ->.
      change (List.map ?f ?l) with (f <$> l) in Hb'. rewrite list_lookup_fmap, Ha in Hb'. injection Hb' as <-. reflexivity. }
    subst x. rewrite (awf_size _ _ W). destruct (one_to_2dim_any s i (awf_s _ _ W)) as [q Eq]. rewrite Eq.
    unfold col. destruct (cell g i) as [k|] eqn:Ek; [|rewrite app_nil_r; reflexivity].
    destruct (wf0_cell _ (awf_0 _ _ W) i k Ek) as [grp Hk]. rewrite Hk. cbn [bind]. rewrite (chain_at_live _ _ _ Hk). reflexivity.
Qed.

Lemma count_app c (l k : list (option color)) : count_of c (l ++ k) = (count_of c l + count_of c k)%nat.
Proof. unfold count_of. rewrite List.filter_app, app_length. reflexivity. Qed.

Lemma count_none c (l : list (option color)) : (forall i c', l !! i <> Some (Some c')) -> count_of c l = 0%nat.
Proof.
  intros H. unfold count_of. induction l as [|x l IH]; [reflexivity|]. cbn [List.filter].
  destruct x as [c'|]; [exfalso; exact (H 0%nat c' eq_refl)|]. cbn [mcolor_eqb]. apply IH. intros i c'. exact (H (S i) c').
Qed.

(** what the list shows past its end, and past the cells of the board *)
Lemma from_to_vec (v : list (option color)) (f : nat -> option color) :
  (forall j, f j = mjoin (v !! j)) -> List.map f (seq 0 361) = take 361 (v ++ replicate 361 None).
Proof.
  intros H. apply list_eq. intros i. change (List.map ?f ?l) with (f <$> l). rewrite list_lookup_fmap.
  destruct (Nat.lt_ge_cases i 361) as [Hi|Hi].
  - rewrite lookup_seq_lt by exact Hi. rewrite lookup_take by exact Hi. cbn [fmap option_fmap option_map Nat.add]. rewrite H.
    destruct (v !! i) as [x|] eqn:E.
    + rewrite lookup_app_l by (apply lookup_lt_Some in E; exact E). rewrite E. reflexivity.
    + apply lookup_ge_None_1 in E. rewrite lookup_app_r by exact E. rewrite lookup_replicate_2 by lia. reflexivity.
  - rewrite lookup_seq_ge by exact Hi. rewrite lookup_take_ge by exact Hi. reflexivity.
Qed.

Lemma from_empty dbg : exists g, goban_from dbg [] = Ok g /\ gsize g = (0, 0)%nat /\ to_vec g = Ok (replicate 361 None) /\ get_stones g = Ok [].
Proof. destruct dbg; (eexists; split; [vm_compute; reflexivity|]); repeat split; vm_compute; reflexivity. Qed.

(** a release build *)
Lemma from_release v : (1 <= length v < 400)%nat ->
  (exists i c, v !! i = Some (Some c) /\ (361 <= i)%nat) /\ goban_from false v = Panic \/
  (forall i c, v !! i = Some (Some c) -> (i < 361)%nat) /\ exists g, goban_from false v = Ok g /\
    awf (Nat.sqrt (length v), Nat.sqrt (length v)) g /\ forall j, col g j = mjoin (v !! j).
Proof.
  intros H. destruct (sqrt_bounds v H) as [Hn Hd]. rewrite from_sized by lia.
  destruct (new_board _ Hn) as (g0 & E0 & W0 & C0 & N0). rewrite E0. cbn [bind].
  destruct (from_loop_release _ Hn v 0%nat g0 W0) as [[(k & c & Hk & Hge) F]|[Hall (g' & F & W' & C')]].
  - rewrite C0. cbn. lia.
  - intros j _. apply N0.
  - exact Hd.
  - lia.
  - left. split; [exists k, c; split; [exact Hk|lia]|exact F].
  - right. split; [intros i c Hi; specialize (Hall i c Hi); lia|]. exists g'. split; [exact F|]. split; [exact W'|].
    intros j. rewrite C'. destruct (decide (j < 0)%nat); [lia|]. rewrite Nat.sub_0_r. reflexivity.
Qed.

(** a debug build *)
Lemma from_debug v : (1 <= length v < 400)%nat ->
  (exists i c, v !! i = Some (Some c) /\ (Nat.sqrt (length v) * Nat.sqrt (length v) <= i)%nat) /\ goban_from true v = Panic \/
  (forall i c, v !! i = Some (Some c) -> (i < Nat.sqrt (length v) * Nat.sqrt (length v))%nat) /\ exists g, goban_from true v = Ok g.
Proof.
  intros H. destruct (sqrt_bounds v H) as [Hn Hd]. pose proof (sqrt_le (length v)) as [Hs1 Hs2].
  rewrite from_sized by lia. set (n := Nat.sqrt (length v)) in *.
  assert (Hlen : length (take (n * n) v) = (n * n)%nat) by (rewrite take_length; lia).
  destruct (goban_from_ok true n (take (n * n) v) Hn Hlen) as (g & E & W & _).
  unfold goban_from in E. rewrite Hlen, sqrt_square in E by lia.
  destruct (goban_new (n, n)) as [g0| |]; [|discriminate E..]. cbn [bind] in *.
  rewrite (from_split true n (n * n) v g0) by lia. rewrite Hlen. rewrite E. cbn [bind].
  destruct (from_loop_tail n g Hn (wf_size n g W) (drop (n * n) v) (n * n)%nat) as [[(k & c & Hk) F]|[Hall F]].
  - lia.
  - rewrite drop_length. replace (n * n + (length v - n * n))%nat with (length v) by lia. exact Hd.
  - left. rewrite lookup_drop in Hk. split; [exists (n * n + k)%nat, c; split; [exact Hk|lia]|exact F].
  - right. split; [|exists g; apply F]. intros i c Hi. destruct (Nat.lt_ge_cases i (n * n)) as [L|L]; [exact L|].
    exfalso. apply (Hall (i - n * n)%nat c). rewrite lookup_drop. replace (n * n + (i - n * n))%nat with i by lia. exact Hi.
Qed.

Lemma from_any dbg v :
  ((400 <= length v)%nat -> goban_from dbg v = Panic) /\
  ((length v < 400)%nat ->
     (goban_from dbg v = Panic <->
        exists i c, v !! i = Some (Some c) /\ ((if dbg then Nat.sqrt (length v) * Nat.sqrt (length v) else 361) <= i)%nat) /\
     (goban_from dbg v = Panic \/ exists g, goban_from dbg v = Ok g)).
Proof.
  split; [apply from_long|]. intros H. destruct (Nat.eq_dec (length v) 0) as [L0|L0].
  { destruct v; [|discriminate L0]. destruct (from_empty dbg) as (g & E & _). rewrite E. split; [|right; eauto].
    split; [discriminate|]. intros (i & c & Hi & _). discriminate Hi. }
  destruct dbg.
  - destruct (from_debug v ltac:(lia)) as [[HX F]|[Hall [g F]]]; rewrite F; (split; [|eauto]).
    + split; auto.
    + split; [discriminate|]. intros (i & c & Hi & Hge). specialize (Hall i c Hi). lia.
  - destruct (from_release v ltac:(lia)) as [[HX F]|[Hall (g & F & _)]]; rewrite F; (split; [|eauto]).
    + split; auto.
    + split; [discriminate|]. intros (i & c & Hi & Hge). specialize (Hall i c Hi). lia.
Qed.

Lemma from_shows dbg v g : goban_from dbg v = Ok g ->
  gsize g = (Nat.sqrt (length v), Nat.sqrt (length v)) /\
  to_vec g = Ok (take 361 (v ++ replicate 361 None)) /\
  number_of_stones g = (count_of Black v, count_of White v) /\
  exists l, get_stones g = Ok l /\ length l = (count_of Black v + count_of White v)%nat /\
    forall x y c, ((x, y), c) ∈ l <-> (y < Nat.sqrt (length v))%nat /\ v !! (x * Nat.sqrt (length v) + y)%nat = Some (Some c).
Proof.
  intros E0. assert (E : goban_from false v = Ok g) by (destruct dbg; [apply rf_goban_from, E0|exact E0]). clear E0.
  destruct (Nat.lt_ge_cases (length v) 400) as [H|H]; [|rewrite from_long in E by exact H; discriminate E].
  destruct (Nat.eq_dec (length v) 0) as [L0|L0].
  { destruct v; [|discriminate L0]. destruct (from_empty false) as (g' & E' & S & T & G). rewrite E' in E. injection E as <-.
    split; [exact S|]. split; [exact T|]. split.
    - clear -E'. pose proof (f_equal (fun r => match r with Ok g => number_of_stones g | _ => (1, 1)%nat end) E') as F. cbv beta iota in F.
      rewrite <- F. vm_compute. reflexivity.
    - exists []. split; [exact G|]. split; [reflexivity|]. intros x y c. split; [intros Hx; inversion Hx|]. cbn. intros [Hy _]. lia. }
  destruct (from_release v ltac:(lia)) as [[HX F]|[Hall (g' & F & W & C)]]; rewrite F in E; [discriminate E|injection E as ->].
  destruct (sqrt_bounds v ltac:(lia)) as [Hn Hd]. set (n := Nat.sqrt (length v)) in *.
  split; [apply (awf_size _ _ W)|]. split; [rewrite (to_vec_any _ _ W); f_equal; apply from_to_vec, C|].
  assert (HI : forall c, icount 19 (col g) c = count_of c v).
  { intros c0. rewrite <- !count_of_icount, !(from_to_vec v _ C).
    assert (HC : forall c, count_of c (take 361 (v ++ replicate 361 None)) = count_of c v).
    { intros c. rewrite firstn_app, count_app. rewrite (count_none c (take (361 - length v) (replicate 361 None))).
      - rewrite <- (take_drop 361 v) at 2. rewrite count_app, (count_none c (drop 361 v)); [reflexivity|].
        intros i c' Hi. rewrite lookup_drop in Hi. apply Hall in Hi. lia.
      - intros i c' Hi. apply lookup_take_Some in Hi as [Hi _]. apply lookup_replicate in Hi as [Hi _]. discriminate Hi. }
    apply HC. }
  split; [rewrite (numbers_any _ _ W), !HI; reflexivity|].
  - destruct (stones_any _ g W) as (l & El & Hlen & Hl). exists l. split; [exact El|]. split; [rewrite Hlen, !HI; reflexivity|]. intros x y c. rewrite Hl. split.
    + intros (i & Hi & Hc & Hp). rewrite C in Hc. assert (Hv : v !! i = Some (Some c)) by (destruct (v !! i) as [[c'|]|]; cbn in Hc; congruence).
      assert (Hlt : (i < length v)%nat) by (apply lookup_lt_Some in Hv; exact Hv).
      rewrite one_to_2dim_n in Hp; [|lia| |lia].
      * injection Hp as <- <-. split; [apply Nat.mod_upper_bound; lia|]. rewrite <- Hv. f_equal. pose proof (Nat.div_mod i n). lia.
      * eapply Nat.le_lt_trans; [apply (Nat.div_le_mono i (length v)); lia|exact Hd].
    + intros [Hy Hv]. exists (x * n + y)%nat. split; [apply (Hall _ c Hv)|]. split; [rewrite C, Hv; reflexivity|].
      assert (Hlt : (x * n + y < length v)%nat) by (apply lookup_lt_Some in Hv; exact Hv).
      assert (Hq : ((x * n + y) / n = x)%nat) by (symmetry; apply (Nat.div_unique _ n x y); lia).
      assert (Hr : ((x * n + y) mod n = y)%nat) by (symmetry; apply (Nat.mod_unique _ n x y); lia).
      rewrite one_to_2dim_n; [rewrite Hq, Hr; reflexivity|lia| |lia].
      eapply Nat.le_lt_trans; [apply (Nat.div_le_mono _ (length v)); lia|exact Hd].
Qed.
