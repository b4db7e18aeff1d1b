(** What the enumerations return on boards whose width divides their height. *)
From stdpp Require Import relations sorting.
From Verif Require Import VerdictSpec PlayoutSpec Observe RectSpec RectVerdictSpec RectReach.
From Verif Require Import MonadFacts BitsetFacts CoordFacts Struct Push Inv Bridge GameFacts BoardFacts LegalsFacts ClaimFacts.
From Verif Require Import RectCoord RectInv RectCapture RectBridge RectGame RectReachFacts RectVerdict.
From Coq Require Import Lia.

Local Notation length := Datatypes.length.
Open Scope nat_scope.

(** ** Counting *)

Lemma times_nil p : times p [] = 0.
Proof. reflexivity. Qed.
Lemma times_cons p q l : times p (q :: l) = (if decide (q = p) then 1 else 0) + times p l.
Proof. unfold times. rewrite filter_cons. destruct (decide (q = p)); reflexivity. Qed.
Lemma times_app p l l' : times p (l ++ l') = times p l + times p l'.
Proof. unfold times. rewrite filter_app, app_length. reflexivity. Qed.
Lemma times_flat_map {A} p (f : A -> list coord) l : times p (flat_map f l) = sum_list_with (fun x => times p (f x)) l.
Proof. induction l as [|a l IH]; [reflexivity|]. cbn [flat_map sum_list_with]. rewrite times_app, IH. reflexivity. Qed.
Lemma times_filter p (f : coord -> bool) l : times p (List.filter f l) = if f p then times p l else 0.
Proof.
  induction l as [|a l IH]; [destruct (f p); reflexivity|]. cbn [List.filter]. rewrite times_cons.
  destruct (f a) eqn:E; rewrite ?times_cons, IH; destruct (decide (a = p)) as [->|]; rewrite ?E; destruct (f p); try congruence; lia.
Qed.
Lemma times_zero p l : times p l = 0 <-> p ∉ l.
Proof.
  induction l as [|a l IH]; [split; [intros _ F; apply elem_of_nil in F; exact F|reflexivity]|].
  rewrite times_cons, elem_of_cons. destruct (decide (a = p)) as [->|D]; [split; [lia|intros F; exfalso; apply F; auto]|].
  cbn [Nat.add]. rewrite IH. split; [intros H [F|F]; [congruence|contradiction]|tauto].
Qed.

Lemma sum_zero {A} (f : A -> nat) l : (forall x, x ∈ l -> f x = 0) -> sum_list_with f l = 0.
Proof. induction l as [|a l IH]; intros H; [reflexivity|]. cbn. rewrite H, IH; [reflexivity| |left]. intros x Hx. apply H. right. exact Hx. Qed.
Lemma sum_ext {A} (f f' : A -> nat) l : (forall x, x ∈ l -> f x = f' x) -> sum_list_with f l = sum_list_with f' l.
Proof. induction l as [|a l IH]; intros H; [reflexivity|]. cbn. rewrite (H a), IH; [reflexivity| |left]. intros x Hx. apply H. right. exact Hx. Qed.
Lemma sum_single (f : nat -> nat) r n : (forall x, x < n -> x <> r -> f x = 0) -> sum_list_with f (seq 0 n) = if r <? n then f r else 0.
Proof.
  intros H. destruct (Nat.ltb_spec r n) as [Hr|Hr].
  - replace n with (r + S (n - S r)) by lia. rewrite seq_app, sum_list_with_app. cbn [seq sum_list_with Nat.add].
    rewrite (sum_zero f (seq 0 r)), (sum_zero f (seq (S r) (n - S r))); [lia|..]; intros x Hx; apply elem_of_seq in Hx; apply H; lia.
  - apply sum_zero. intros x Hx. apply elem_of_seq in Hx. apply H; lia.
Qed.
Lemma sum_const {A} (f : A -> nat) k l : (forall x, x ∈ l -> f x = k) -> sum_list_with f l = k * length l.
Proof. induction l as [|a l IH]; intros H; cbn; [lia|]. rewrite (H a), IH; [lia| |left]. intros x Hx. apply H. right. exact Hx. Qed.

(** the numbers below [a * b], row by row *)
Lemma seq_rows {B} (f : nat -> list B) a b : flat_map f (seq 0 (a * b)) = flat_map (fun r => flat_map (fun m => f (r * b + m)) (seq 0 b)) (seq 0 a).
Proof.
  induction a as [|a IH]; [reflexivity|]. replace (S a * b) with (a * b + b) by lia.
  rewrite seq_app, flat_map_app, IH. rewrite (seq_S a 0), flat_map_app. cbn [flat_map]. rewrite app_nil_r. f_equal.
  cbn [Nat.add]. rewrite <- (Nat.add_0_r (a * b)) at 1. rewrite <- fmap_add_seq. change (fmap (Nat.add (a * b)) (seq 0 b)) with (List.map (Nat.add (a * b)) (seq 0 b)).
  rewrite flat_map_map. reflexivity.
Qed.

(** ** The empty points *)

Lemma rget_empty_coords n g k : rwf n g -> fst n = k * snd n ->
  get_empty_coords g =
  Ok (flat_map (fun r => flat_map (fun j => flat_map (fun c => match cell g (r * fst n + (j * snd n + c)) with Some _ => [] | None => [(r, c)] end)
    (seq 0 (snd n))) (seq 0 k)) (seq 0 (snd n))).
Proof.
  intros W Hk. pose proof (rwf_n n g W) as F. pose proof (fits_wide n F) as Hw. pose proof F as (H19 & H1 & _).
  unfold get_empty_coords. rewrite (rwf_size n g W). pose proof (wf0_board g (rwf_0 n g W)) as Hb.
  assert (Hlen : fst n * snd n <= 361) by nia.
  replace (fst n * snd n <=? length (board g)) with true by (symmetry; apply Nat.leb_le; lia). cbn [assert_ bind].
  assert (Hz : zip (seq 0 (fst n * snd n)) (take (fst n * snd n) (board g)) = List.map (fun i => (i, cell g i)) (seq 0 (fst n * snd n))).
  { assert (Ht : length (take (fst n * snd n) (board g)) = fst n * snd n) by (rewrite take_length; lia).
    pose proof (zip_seq (take (fst n * snd n) (board g))) as E. rewrite Ht in E. rewrite E.
    apply List.map_ext_in. intros i Hi. apply in_seq in Hi. rewrite lookup_take by lia. reflexivity. }
  rewrite Hz, (foldM_collect _ (fun x => match snd x with Some _ => [] | None => [(fst x / fst n, fst x mod snd n)] end)).
  - cbn [app]. f_equal. rewrite flat_map_map. cbn [fst snd]. rewrite (Nat.mul_comm (fst n)), seq_rows. apply flat_map_ext_in. intros r Hr. apply elem_of_seq in Hr.
    replace (seq 0 (fst n)) with (seq 0 (k * snd n)) by (rewrite <- Hk; reflexivity). rewrite seq_rows. apply flat_map_ext_in. intros j Hj. apply elem_of_seq in Hj. apply flat_map_ext_in. intros c Hc. apply elem_of_seq in Hc.
    destruct (cell g _); [reflexivity|]. assert (Hm : j * snd n + c < fst n) by nia.
    rewrite (proj1 (divmod_idx (fst n) r (j * snd n + c) Hm)). repeat f_equal.
    replace (r * fst n + (j * snd n + c)) with (c + (r * k + j) * snd n) by nia. rewrite Nat.mod_add by lia. apply Nat.mod_small. lia.
  - intros acc [i c] Hx. apply elem_of_lmap in Hx as (j & E & Hj). injection E as -> ->. apply elem_of_seq in Hj. cbn [fst snd].
    destruct (cell g j); [rewrite app_nil_r; reflexivity|].
    unfold one_to_2dim. replace (fst n =? 0) with false by (symmetry; apply Nat.eqb_neq; lia). replace (snd n =? 0) with false by (symmetry; apply Nat.eqb_neq; lia). cbn [orb bind].
    assert (j / fst n < snd n) by (apply Nat.div_lt_upper_bound; lia). pose proof (Nat.mod_upper_bound j (snd n) ltac:(lia)).
    unfold as_u8. rewrite (Nat.mod_small (j / fst n)), (Nat.mod_small (j mod snd n)) by lia. reflexivity.
Qed.

Lemma rempty_times n g k p : rwf n g -> fst n = k * snd n ->
  exists l, get_empty_coords g = Ok l /\ (forall q, q ∈ l -> ron n q) /\
    times p l = if (fst p <? snd n) && (snd p <? snd n) then match pos_of g p with None => k | Some _ => k - 1 end else 0.
Proof.
  intros W Hk. pose proof (rwf_n n g W) as F. pose proof (fits_wide n F) as Hw. pose proof F as (H19 & H1 & _).
  rewrite (rget_empty_coords n g k W Hk). eexists. split; [reflexivity|]. split.
  { intros q Hq. apply elem_of_list_In, in_flat_map in Hq as (r & Hr & Hq). apply in_flat_map in Hq as (j & Hj & Hq). apply in_flat_map in Hq as (c & Hc & Hq).
    apply in_seq in Hr, Hj, Hc. destruct (cell g _); [destruct Hq|]. destruct Hq as [<-|[]]. split; cbn; lia. }
  destruct p as [r c]. cbn [fst snd]. rewrite times_flat_map.
  rewrite (sum_single _ r).
  2:{ intros x _ Hx. rewrite times_flat_map. apply sum_zero. intros j _. rewrite times_flat_map. apply sum_zero. intros c' _.
      destruct (cell g _); [reflexivity|]. rewrite times_cons, times_nil. destruct (decide _) as [E|]; [injection E; congruence|reflexivity]. }
  destruct (Nat.ltb_spec r (snd n)) as [Hr|]; [|reflexivity]. cbn [andb].
  assert (HJ : forall j, times (r, c) (flat_map (fun c0 => match cell g (r * fst n + (j * snd n + c0)) with Some _ => [] | None => [(r, c0)] end) (seq 0 (snd n))) =
     if c <? snd n then match cell g (r * fst n + (j * snd n + c)) with Some _ => 0 | None => 1 end else 0).
  { intros j. rewrite times_flat_map, (sum_single _ c).
    - destruct (c <? snd n); [|reflexivity]. destruct (cell g _); [reflexivity|]. rewrite times_cons, times_nil. destruct (decide _); [reflexivity|contradiction].
    - intros x _ Hx. destruct (cell g _); [reflexivity|]. rewrite times_cons, times_nil. destruct (decide _) as [E|]; [injection E; congruence|reflexivity]. }
  rewrite times_flat_map, (sum_ext _ _ _ (fun j _ => HJ j)).
  destruct (Nat.ltb_spec c (snd n)) as [Hc|]; [|apply sum_zero; reflexivity].
  destruct k as [|k]; [lia|]. cbn [seq sum_list_with]. rewrite (sum_const _ 1), seq_length.
  - cbn [Nat.mul Nat.add]. rewrite (rpos_of_col n g (r, c) W) by (split; cbn; lia). unfold ridx. cbn [fst snd].
    destruct (cell g (r * fst n + c)) as [x|] eqn:E.
    + destruct (rcol_cell n g _ x W E) as (grp & _ & ->). lia.
    + rewrite (proj2 (rcol_None n g _ W) E). lia.
  - intros j Hj. apply elem_of_seq in Hj. destruct (cell g _) as [x|] eqn:E; [|reflexivity]. exfalso.
    destruct (rwf_on n g W _ x E) as [_ K]. assert (Hm : j * snd n + c < fst n) by nia.
    rewrite (proj2 (divmod_idx (fst n) r (j * snd n + c) Hm)) in K. nia.
Qed.

(** ** Claims *)

Theorem rect_pseudo dbg n b w g p k : fst n = k * snd n -> rgreach dbg n b w g ->
  exists l, pseudo_legals g = Ok l /\
    (fst p < snd n -> snd p < snd n -> position g p = None -> times p l = k) /\
    (fst p < snd n -> snd p < snd n -> position g p <> None -> times p l = k - 1) /\
    (snd n <= fst p \/ snd n <= snd p -> times p l = 0).
Proof.
  intros Hk HG. pose proof (rgi_wf _ _ _ _ (rgreach_inv _ _ _ _ _ (ex_intro _ k Hk) HG)) as W.
  destruct (rempty_times n _ k p W Hk) as (l & E & _ & T). exists l. split; [exact E|]. rewrite T. unfold position. split; [|split].
  - intros H1 H2 H3. rewrite H3. apply Nat.ltb_lt in H1, H2. rewrite H1, H2. reflexivity.
  - intros H1 H2 H3. apply Nat.ltb_lt in H1, H2. rewrite H1, H2. destruct (pos_of _ p); [reflexivity|contradiction].
  - intros [H|H]; apply Nat.ltb_ge in H; rewrite H, ?andb_false_r; reflexivity.
Qed.

Theorem rect_legals dbg n b w g p k : fst n = k * snd n -> rgreach dbg n b w g -> (N.of_nat (b + w) < 65535)%N ->
  exists l, legals dbg g = Ok l /\
    (fst p < snd n -> snd p < snd n -> first_reason (rpoint_reasons n (flag_illegal (gm_rule g)) (table_of g) p) Accepted -> times p l = k) /\
    (~ (fst p < snd n /\ snd p < snd n /\ first_reason (rpoint_reasons n (flag_illegal (gm_rule g)) (table_of g) p) Accepted) -> times p l = 0).
Proof.
  intros Hk HG L. pose proof (ex_intro _ k Hk : Nat.divide (snd n) (fst n)) as Hd.
  pose proof (rgreach_inv _ _ _ _ _ Hd HG) as G. pose proof (rgi_wf _ _ _ _ G) as W.
  assert (HL : ~ no_slot_left g) by (pose proof (rgi_chains _ _ _ _ G); unfold no_slot_left; lia).
  pose proof (rwf_n n _ W) as F. pose proof (fits_wide n F) as Hw.
  destruct (rempty_times n _ k p W Hk) as (l & E & Hon & T). set (f := flag_illegal (gm_rule g)).
  set (h := fun q => match check_point_by dbg g q f with Ok None => true | _ => false end).
  assert (HE : legals dbg g = Ok (List.filter h l)).
  { unfold legals, legals_by, pseudo_legals. rewrite E. cbn [bind]. apply filterM_ok. intros q Hq. apply Hon in Hq.
    unfold h. destruct (rpoint_exact dbg n b w g q Hd HG Hq f) as [[_ K]|(v & Ev & _)]; [contradiction|]. fold f. rewrite Ev. reflexivity. }
  exists (List.filter h l). split; [exact HE|]. rewrite times_filter, T.
  assert (Hh : ron n p -> h p = true <-> first_reason (rpoint_reasons n f (table_of g) p) Accepted).
  { intros Hp. pose proof (rcheck_exact dbg n b w g p f Accepted Hd HG Hp HL) as K. rewrite <- K. unfold h. cbn [error_of].
    destruct (check_point_by dbg g p f) as [[e|]| |]; split; congruence. }
  split.
  - intros H1 H2 H3. rewrite (proj2 (Hh ltac:(split; lia)) H3). apply Nat.ltb_lt in H1, H2. rewrite H1, H2. cbn [andb].
    apply Forall_cons in H3 as [H3 _]. cbn [snd t_pos table_of] in H3. unfold position in H3. destruct (pos_of _ p); [exfalso; apply H3; discriminate|reflexivity].
  - intros HN. destruct (h p) eqn:Ep; [|reflexivity]. destruct (Nat.ltb_spec (fst p) (snd n)) as [H1|]; [|reflexivity].
    destruct (Nat.ltb_spec (snd p) (snd n)) as [H2|]; [|reflexivity]. exfalso. apply HN. split; [exact H1|]. split; [exact H2|].
    apply Hh; [split; lia|reflexivity].
Qed.

Theorem rect_stones dbg n b w g : Nat.divide (snd n) (fst n) -> rgreach dbg n b w g ->
  exists l, get_stones (gm_goban g) = Ok l /\ NoDup l /\ forall p c, (p, c) ∈ l <-> ron n p /\ position g p = Some c.
Proof.
  intros Hd HG. pose proof (rgi_wf _ _ _ _ (rgreach_inv _ _ _ _ _ Hd HG)) as W. set (gb := gm_goban g) in *.
  pose proof (rwf_n n _ W) as F. pose proof (wf0_board gb (rwf_0 n gb W)) as Hb.
  unfold get_stones. rewrite zip_seq, Hb.
  rewrite (foldM_collect _ (fun x => match col gb (fst x) with Some c => [(rpt n (fst x), c)] | None => [] end)).
  - cbn [app]. eexists. split; [reflexivity|]. rewrite flat_map_map. cbn [fst].
    assert (HS : forall l : list nat, NoDup l ->
       NoDup (flat_map (fun i => match col gb i with Some c => [(rpt n i, c)] | None => [] end) l) /\
       forall q c, (q, c) ∈ flat_map (fun i => match col gb i with Some c => [(rpt n i, c)] | None => [] end) l <-> exists i, i ∈ l /\ q = rpt n i /\ col gb i = Some c).
    { induction l as [|i l IH]; intros Nd.
      - split; [apply NoDup_nil_2|]. intros q c. split; [intros H; apply elem_of_nil in H; contradiction|intros (i & H & _); apply elem_of_nil in H; contradiction].
      - apply NoDup_cons in Nd as [Hi Nd]. destruct (IH Nd) as [N1 M1]. cbn [flat_map]. destruct (col gb i) as [x|] eqn:Ec; cbn [app].
        + split.
          * apply NoDup_cons. split; [|exact N1]. rewrite M1. intros (j & Hj & E & Ej).
            assert (V : forall m y, col gb m = Some y -> vi n m).
            { intros m y Hm. destruct (cell gb m) as [z|] eqn:Ez; [exact (rwf_on n gb W m z Ez)|]. rewrite (proj2 (rcol_None n gb m W) Ez) in Hm. discriminate. }
            assert (i = j); [|congruence]. rewrite <- (ridx_pt n i (V _ _ Ec)), <- (ridx_pt n j (V _ _ Ej)), E. reflexivity.
          * intros q c. rewrite elem_of_cons, M1. split.
            -- intros [[= -> ->]|(j & H1 & H2)]; [exists i; split; [left|auto]|exists j; split; [right; exact H1|exact H2]].
            -- intros (j & H1 & H2 & H3). apply elem_of_cons in H1 as [->|H1]; [left; congruence|right; eauto].
        + split; [exact N1|]. intros q c. rewrite M1. split.
          * intros (j & H1 & H2). exists j. split; [right; exact H1|exact H2].
          * intros (j & H1 & H2 & H3). apply elem_of_cons in H1 as [->|H1]; [congruence|eauto]. }
    destruct (HS (seq 0 361)) as [N1 M1]; [apply NoDup_ListNoDup, seq_NoDup|]. split; [exact N1|]. intros p c. rewrite M1. split.
    + intros (i & _ & -> & Hc). assert (V : vi n i).
      { destruct (cell gb i) as [z|] eqn:Ez; [exact (rwf_on n gb W i z Ez)|]. rewrite (proj2 (rcol_None n gb i W) Ez) in Hc. discriminate. }
      split; [apply rpt_on, V|]. unfold position. fold gb. rewrite (rpos_of_col n gb _ W (rpt_on n i V)), (ridx_pt n i V). exact Hc.
    + intros [Hp Hc]. exists (ridx n p). pose proof (ridx_on n p F Hp) as V. split; [apply elem_of_seq; pose proof (vi_361 n _ F V); lia|].
      split; [rewrite (rpt_idx n p F Hp); reflexivity|]. unfold position in Hc. fold gb in Hc. rewrite (rpos_of_col n gb p W Hp) in Hc. exact Hc.
  - intros acc [i c] Hx. apply elem_of_lmap in Hx as (j & E & Hj). injection E as -> ->. apply elem_of_seq in Hj. cbn [fst snd].
    change (mjoin (board gb !! j)) with (cell gb j).
    destruct (cell gb j) as [k|] eqn:Ek; [|rewrite (proj2 (rcol_None n gb j W) Ek), app_nil_r; reflexivity].
    destruct (rcol_cell n gb j k W Ek) as (grp & Hk & ->). rewrite (rwf_size n gb W).
    pose proof (rwf_on n gb W j k Ek) as V.
    rewrite one_to_2dim_rect; [|exact F|exact V]. cbn [bind]. rewrite (chain_at_live _ _ _ Hk). reflexivity.
Qed.

Theorem rect_vec dbg n b w g : Nat.divide (snd n) (fst n) -> rgreach dbg n b w g -> fst n * snd n < 256 \/ dbg = false ->
  exists l, pseudo_legals_vec dbg g = Ok l /\ NoDup l /\ forall p, p ∈ l <-> ron n p /\ position g p = None.
Proof.
  intros Hd HG Hs. pose proof (rgi_wf _ _ _ _ (rgreach_inv _ _ _ _ _ Hd HG)) as W. set (gb := gm_goban g) in *.
  assert (F : filterM (fun p => let! cell := vget (board gb) (two_to_1dim n p) in
                    Ok (match cell with None => true | Some _ => false end))
          (rpoints n) = Ok (List.filter (fun p => is_none (pos_of gb p)) (rpoints n))).
  { apply filterM_ok. intros p Hp. apply elem_of_rpoints in Hp as Hp'.
    pose proof (rget_color_ok n _ p W Hp') as E. rewrite <- (rpos_of_col n _ p W Hp') in E. unfold get_color, get_color_idx in E. rewrite (rwf_size n _ W) in E.
    destruct (vget (board gb) (two_to_1dim n p)) as [[k|]| |]; cbn [bind] in *; [|injection E as <-; reflexivity|discriminate..].
    destruct (chain_at _ _); cbn [bind] in E; [|discriminate..]. injection E as <-. reflexivity. }
  exists (List.filter (fun p => is_none (pos_of gb p)) (rpoints n)). split.
  - unfold pseudo_legals_vec. fold gb. rewrite (rwf_size n gb W). destruct n as [h v]. unfold u8_mul. cbn [fst snd] in Hs.
    destruct (Nat.ltb_spec (h * v) 256) as [L|L]; cbn [bind]; [exact F|]. destruct Hs as [Hs| ->]; [lia|]. cbn [bind]. exact F.
  - split; [apply NoDup_lfilter, NoDup_rpoints|]. intros p. rewrite elem_of_lfilter, elem_of_rpoints. unfold position. fold gb.
    destruct (pos_of gb p); cbn; intuition discriminate.
Qed.

Theorem rect_prisoners dbg n b w g : Nat.divide (snd n) (fst n) -> rgreach dbg n b w g ->
  (N.of_nat w = N.of_nat (rcount n (position g) White) + fst (gm_prisoners g) /\
   N.of_nat b = N.of_nat (rcount n (position g) Black) + snd (gm_prisoners g))%N.
Proof.
  intros Hd HG. pose proof (rgreach_inv _ _ _ _ _ Hd HG) as G. pose proof (rgi_black _ _ _ _ G). pose proof (rgi_white _ _ _ _ G).
  unfold position. lia.
Qed.
