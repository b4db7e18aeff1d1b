(** Groups, equality and the ways to look at a board, on boards whose width
    divides their height. *)
From stdpp Require Import relations sorting.
From Verif Require Import Text VerdictSpec PlayoutSpec Observe RectSpec RectVerdictSpec RectReach.
From Verif Require Import MonadFacts BitsetFacts CoordFacts Struct Push Inv Bridge GameFacts BoardFacts LegalsFacts ClaimFacts ApiFacts ViewFacts.
From Verif Require Import RectCoord RectInv RectCapture RectBridge RectGame RectReachFacts RectVerdict RectList RectGo Samples SampleFacts RefuteFacts CaseFacts PlayClaims.
From Coq Require Import Lia.

Local Notation length := Datatypes.length.
Open Scope nat_scope.

Lemma rgroup_no_cell n g p : rwf n g -> group_no g p = cell g (ridx n p).
Proof. intros W. unfold group_no. rewrite (rwf_size n g W). unfold cell. change (two_to_1dim n p) with (ridx n p). destruct (board g !! ridx n p); reflexivity. Qed.

Lemma rstone_group n g p : rwf n g -> ron n p -> pos_of g p <> None ->
  exists k grp, cell g (ridx n p) = Some k /\ live g k = Some grp /\ pos_of g p = Some (g_color grp).
Proof.
  intros W Hp H. rewrite (rpos_of_col n g p W Hp) in *. destruct (cell g (ridx n p)) as [k|] eqn:E.
  - destruct (rcol_cell n g _ k W E) as (grp & Hk & Ec). exists k, grp. auto.
  - exfalso. apply H. unfold col. rewrite E. reflexivity.
Qed.

(** ** Groups *)

Theorem rect_groups dbg n b w g p : Nat.divide (snd n) (fst n) -> rgreach dbg n b w g -> ron n p -> position g p <> None ->
  (forall q, ron n q -> group_no (gm_goban g) p = group_no (gm_goban g) q <-> rconnected n (position g) p q) /\
  (exists k c l, group_no (gm_goban g) p = Some k /\ position g p = Some c /\
     chain_stones dbg (gm_goban g) k = Ok (List.map (fun q => (q, c)) l) /\ NoDup l /\
     (forall q, q ∈ l <-> ron n q /\ rconnected n (position g) p q)) /\
  exists grp ls, group_of (gm_goban g) p = Some grp /\ group_liberties grp = Ok ls /\ StronglySorted lt ls /\ number_of_liberties grp = length ls /\
    forall i, i ∈ ls <-> exists q, i = index (fst n) q /\ rliberty n (position g) p q.
Proof.
  intros Hd HG Hp Hs. unfold position in *. pose proof (rgi_wf _ _ _ _ (rgreach_inv dbg n b w g Hd HG)) as W. set (x := gm_goban g) in *.
  destruct (rstone_group n x p W Hp Hs) as (k & grp & Hk & Hl & Ec). pose proof (rwf_n n x W) as Fn.
  split; [|split].
  - intros q Hq. rewrite !(rgroup_no_cell n x) by exact W. rewrite (rconnected_cell n x p q k W Hp Hk), Hk. split; [intros H; auto|intros [_ H]; auto].
  - destruct (wf0_chain x (rwf_0 n x W) k grp Hl) as [_ (l & R & Hm)].
    pose proof (wf0_iter dbg x k grp l (rwf_0 n x W) R Hm) as Hit.
    exists k, (g_color grp), (List.map (rpt n) l). split; [rewrite (rgroup_no_cell n x p W); exact Hk|]. split; [exact Ec|].
    assert (Hv : forall i, i ∈ l -> vi n i) by (intros i Hi; apply Hm in Hi; exact (rwf_on n x W i k Hi)).
    split; [|split].
    + unfold chain_stones. rewrite (chain_at_live _ _ _ Hl). cbn [bind]. rewrite Hit. cbn [bind]. rewrite List.map_map.
      apply mapM_ok. intros i Hi. rewrite (rwf_size n x W), (one_to_2dim_rect n i Fn (Hv i Hi)). reflexivity.
    + apply NoDup_fmap_in; [|exact (ring_nodup _ _ _ R)]. intros i j Hi Hj E. rewrite <- (ridx_pt n i (Hv i Hi)), <- (ridx_pt n j (Hv j Hj)), E. reflexivity.
    + intros q. rewrite elem_of_lmap. rewrite (rconnected_cell n x p q k W Hp Hk). split.
      * intros (i & -> & Hi). pose proof (Hv i Hi) as V. rewrite (ridx_pt n i V). split; [exact (rpt_on n i V)|]. split; [exact (rpt_on n i V)|apply Hm, Hi].
      * intros [Hq [_ Hc]]. exists (ridx n q). split; [symmetry; apply rpt_idx; assumption|apply Hm, Hc].
  - pose proof (wf0_chain x (rwf_0 n x W) k grp Hl) as [Hb _].
    exists grp, (lib_list (g_liberties grp)). split.
    { unfold group_of. rewrite (rgroup_no_cell n x p W), Hk. unfold live in Hl. destruct (chains x !! k) as [o|]; exact Hl. }
    unfold group_liberties. rewrite lib_iter_ones_spec by exact Hb. split; [reflexivity|]. split.
    { unfold lib_list. apply sorted_lfilter. generalize 0%nat, 368%nat. intros a len. revert a.
      induction len as [|len IH]; intros a; [constructor|]. cbn. constructor; [apply IH|]. apply Forall_forall.
      intros y Hy. apply elem_of_seq in Hy. lia. }
    split; [apply lib_count_ones_spec, Hb|].
    intros i. rewrite elem_of_lib_list by exact Hb. split.
    + intros Hi. pose proof (rlbit_on n x k grp i W Hl Hi) as V. exists (rpt n i). change (index (fst n) (rpt n i)) with (ridx n (rpt n i)). rewrite (ridx_pt n i V).
      split; [reflexivity|]. apply (rliberty_lbit n x p k grp _ W Hp Hk Hl). rewrite (ridx_pt n i V). split; [exact (rpt_on n i V)|exact Hi].
    + intros (q & -> & Hq). apply (rliberty_lbit n x p k grp q W Hp Hk Hl) in Hq. exact (proj2 Hq).
Qed.

(** ** Equality and hash *)

Theorem rect_equality dbg dbg' n b w b' w' g h : Nat.divide (snd n) (fst n) -> rgreach dbg n b w g -> rgreach dbg' n b' w' h ->
  exists v, goban_eq (gm_goban g) (gm_goban h) = Ok v /\ (v = true <-> rsame_pos n (position g) (position h)) /\
    (v = true -> goban_hash (gm_goban g) = goban_hash (gm_goban h)).
Proof.
  intros Hd HG HH. pose proof (rgi_wf _ _ _ _ (rgreach_inv dbg n b w g Hd HG)) as W. pose proof (rgi_wf _ _ _ _ (rgreach_inv dbg' n b' w' h Hd HH)) as W'.
  destruct (rgoban_eq_spec n _ _ W W') as (v & E & H). exists v. split; [exact E|]. split; [exact H|]. intros V.
  unfold goban_hash. rewrite (rwf_hash n _ W), (rwf_hash n _ W'). apply hash_ext. intros i _. apply (rsame_pos_col n _ _ W W'), H, V.
Qed.

(** ** Arrays *)

Lemma rcell_color_ok n g i : rwf n g -> cell_color g (cell g i) = Ok (col g i).
Proof.
  intros W. unfold cell_color. destruct (cell g i) as [k|] eqn:E.
  - destruct (rcol_cell n g i k W E) as (grp & Hk & ->). rewrite (chain_at_live _ _ _ Hk). reflexivity.
  - unfold col. rewrite E. reflexivity.
Qed.
Lemma rboard_cells n g : rwf n g -> board g = List.map (cell g) (seq 0 361).
Proof.
  intros W. pose proof (wf0_board g (rwf_0 n g W)) as Hb. apply list_eq. intros i.
  change (@List.map nat) with (@fmap list _ nat). rewrite list_lookup_fmap.
  destruct (Nat.lt_ge_cases i 361) as [Hi|Hi].
  - rewrite lookup_seq_lt by exact Hi. cbn. destruct (lookup_lt_is_Some_2 (board g) i ltac:(lia)) as [x Hx]. unfold cell. rewrite Hx. reflexivity.
  - rewrite lookup_seq_ge by exact Hi. apply lookup_ge_None_2. lia.
Qed.
Lemma rcells_colours n g l : rwf n g -> mapM (cell_color g) (List.map (cell g) l) = Ok (List.map (col g) l).
Proof. intros W. induction l as [|i l IH]; [reflexivity|]. cbn [List.map mapM]. rewrite (rcell_color_ok n g i W), IH. reflexivity. Qed.

(** [to_vec]: the point in row [i] and column [j] is entry [i * height + j] *)
Theorem rect_to_vec dbg n b w g : Nat.divide (snd n) (fst n) -> rgreach dbg n b w g ->
  exists v, to_vec (gm_goban g) = Ok v /\ length v = 361 /\
    (forall i j, ron n (i, j) -> v !! (i * fst n + j) = Some (position g (i, j))) /\
    (forall k c, v !! k = Some (Some c) -> exists i j, ron n (i, j) /\ k = i * fst n + j).
Proof.
  intros Hd HG. pose proof (rgi_wf _ _ _ _ (rgreach_inv dbg n b w g Hd HG)) as W. pose proof (rwf_n n _ W) as Fn.
  exists (List.map (col (gm_goban g)) (seq 0 361)). split; [|split; [|split]].
  - unfold to_vec. rewrite (rboard_cells n _ W). apply (rcells_colours n), W.
  - rewrite map_length, seq_length. reflexivity.
  - intros i j Hp. pose proof (vi_lt n _ Fn (ridx_on n (i, j) Fn Hp)) as L. destruct Fn as (F1 & F2 & _). change (ridx n (i, j)) with (i * fst n + j) in L.
    change (@List.map nat) with (@fmap list _ nat). rewrite list_lookup_fmap, lookup_seq_lt by nia. cbn [fmap option_fmap option_map Nat.add]. f_equal. symmetry. exact (rpos_of_col n _ (i, j) W Hp).
  - intros k c E. change (@List.map nat) with (@fmap list _ nat) in E. apply list_lookup_fmap_Some in E as (k' & E & Ec). apply lookup_seq in E as [-> _]. cbn [Nat.add] in Ec.
    destruct (cell (gm_goban g) k) as [m|] eqn:Em; [|unfold col in Ec; rewrite Em in Ec; discriminate].
    pose proof (rwf_on n _ W k m Em) as V. exists (k / fst n), (k mod fst n). split; [exact (rpt_on n k V)|]. symmetry. exact (ridx_pt n k V).
Qed.

(** [matrix]: with a height of [k] times the width, row [i] of the board is row
    [i * k] of the matrix; the rows between are empty *)
Theorem rect_matrix dbg n b w g k : (fst n = k * snd n)%nat -> rgreach dbg n b w g ->
  exists m, matrix (gm_goban g) = Ok m /\ length m = 361 / snd n /\ (forall row, row ∈ m -> length row = snd n) /\
    (forall i j, ron n (i, j) -> exists row, m !! (i * k) = Some row /\ row !! j = Some (position g (i, j))) /\
    (forall r row c, m !! r = Some row -> Some c ∈ row -> exists i, i < fst n /\ r = i * k).
Proof.
  intros Hk HG. assert (Hd : Nat.divide (snd n) (fst n)) by (exists k; exact Hk).
  pose proof (rgi_wf _ _ _ _ (rgreach_inv dbg n b w g Hd HG)) as W. pose proof (rwf_n n _ W) as Fn. pose proof Fn as (F1 & F2 & _).
  set (x := gm_goban g) in *. set (h := fst n) in *. set (v := snd n) in *. assert (Hv : 0 < v) by (destruct v; lia).
  assert (Hkp : 0 < k) by (destruct k; lia).
  exists (List.map (fun r => List.map (fun j => col x (r * v + j)) (seq 0 v)) (seq 0 (361 / v))). split; [|split; [|split; [|split]]].
  - unfold matrix. rewrite (rwf_size n x W). fold v.
    replace (v =? 0) with false by (symmetry; apply Nat.eqb_neq; lia). cbn [negb assert_ bind].
    rewrite (wf0_board x (rwf_0 n x W)). apply mapM_ok. intros r Hr. apply elem_of_seq in Hr.
    assert (Hrn : r * v + v <= 361) by (pose proof (Nat.mul_div_le 361 v ltac:(lia)); nia).
    rewrite (rboard_cells n x W).
    assert (E : take v (drop (r * v) (List.map (cell x) (seq 0 361))) = List.map (cell x) (List.map (fun j => r * v + j) (seq 0 v))).
    { apply list_eq. intros i. change (@List.map nat) with (@fmap list _ nat). rewrite !list_lookup_fmap.
      destruct (Nat.lt_ge_cases i v) as [Hi|Hi].
      - rewrite lookup_take, lookup_drop, list_lookup_fmap by exact Hi. rewrite !lookup_seq_lt by lia. reflexivity.
      - rewrite lookup_take_ge by exact Hi. rewrite (lookup_seq_ge _ v) by exact Hi. reflexivity. }
    rewrite E, (rcells_colours n x _ W), List.map_map. reflexivity.
  - rewrite map_length, seq_length. reflexivity.
  - intros row Hr. apply elem_of_list_In, List.in_map_iff in Hr as (i & <- & _). rewrite map_length, seq_length. reflexivity.
  - intros i j Hp. pose proof Hp as [Hi Hj]. cbn [fst snd] in Hi, Hj. fold h in Hi. fold v in Hj.
    exists (List.map (fun j => col x (i * k * v + j)) (seq 0 v)). change (@List.map nat) with (@fmap list _ nat). split.
    + rewrite list_lookup_fmap, lookup_seq_lt; [reflexivity|]. apply Nat.lt_succ_r, Nat.le_succ_l.
      apply Nat.lt_succ_r, Nat.le_succ_l. apply Nat.div_le_lower_bound; [lia|]. nia.
    + rewrite list_lookup_fmap, lookup_seq_lt by exact Hj. cbn [fmap option_fmap option_map Nat.add]. f_equal. change (position g (i, j)) with (pos_of x (i, j)). rewrite (rpos_of_col n x (i, j) W Hp).
      f_equal. unfold ridx. cbn [fst snd]. fold h. rewrite Hk. lia.
  - intros r row c Hr Hc. change (@List.map nat) with (@fmap list _ nat) in Hr. apply list_lookup_fmap_Some in Hr as (r' & Hr & ->). apply lookup_seq in Hr as [-> Hr]. cbn [Nat.add] in *.
    apply elem_of_list_fmap in Hc as (j & Ec & Hj). apply elem_of_seq in Hj. symmetry in Ec.
    destruct (cell x (r * v + j)) as [m|] eqn:Em; [|unfold col in Ec; rewrite Em in Ec; discriminate].
    pose proof (rwf_on n x W _ m Em) as [V1 V2]. fold h in V1, V2. fold v in V2.
    exists ((r * v + j) / h). split; [exact V1|].
    pose proof (Nat.div_mod (r * v + j) h ltac:(lia)) as E. set (q := (r * v + j) / h) in *. set (z := (r * v + j) mod h) in *. rewrite Hk in E.
    assert (E' : v * r + j = v * (q * k) + z) by nia.
    apply (Nat.div_mod_unique v r (q * k) j z ltac:(lia) V2) in E'. exact (proj1 E').
Qed.

(** ** The printout *)

Definition rglyph_at (n : size_t) (P : pos) (i j : nat) : glyph :=
  match P (i, j) with Some Black => BlackDisc | Some White => WhiteDisc | None => empty_glyph (fst n) (snd n) i j end.

Theorem rect_printout dbg n b w g : Nat.divide (snd n) (fst n) -> rgreach dbg n b w g ->
  exists rows, pretty_string (gm_goban g) = Ok (List.concat rows) /\ length rows = fst n /\
  forall i, i < fst n -> exists row, rows !! i = Some (row ++ [NewLine]) /\ length row = snd n /\
    forall j, j < snd n -> exists x, row !! j = Some x /\ x <> NewLine /\
      (x = BlackDisc <-> position g (i, j) = Some Black) /\ (x = WhiteDisc <-> position g (i, j) = Some White).
Proof.
  intros Hd HG. pose proof (rgi_wf _ _ _ _ (rgreach_inv dbg n b w g Hd HG)) as W. unfold position. set (x := gm_goban g) in *.
  exists (List.map (fun i => List.map (rglyph_at n (pos_of x) i) (seq 0 (snd n)) ++ [NewLine]) (seq 0 (fst n))). split; [|split].
  - unfold pretty_string. rewrite (rwf_size n x W). destruct n as [h v]. cbn [fst snd].
    rewrite (mapM_ok _ (fun i => List.map (rglyph_at (h, v) (pos_of x) i) (seq 0 v) ++ [NewLine])); [reflexivity|].
    intros i Hi. apply elem_of_seq in Hi. rewrite (mapM_ok _ (rglyph_at (h, v) (pos_of x) i)); [reflexivity|].
    intros j Hj. apply elem_of_seq in Hj. assert (O : ron (h, v) (i, j)) by (split; cbn; lia).
    rewrite (rget_color_ok (h, v) x (i, j) W O). cbn [bind]. unfold rglyph_at. rewrite (rpos_of_col (h, v) x (i, j) W O). reflexivity.
  - rewrite map_length, seq_length. reflexivity.
  - intros i Hi. exists (List.map (rglyph_at n (pos_of x) i) (seq 0 (snd n))). change (@List.map nat) with (@fmap list _ nat). split.
    { rewrite list_lookup_fmap, lookup_seq_lt by exact Hi. reflexivity. }
    split; [rewrite fmap_length, seq_length; reflexivity|]. intros j Hj. exists (rglyph_at n (pos_of x) i j). split.
    { rewrite list_lookup_fmap, lookup_seq_lt by exact Hj. reflexivity. }
    unfold rglyph_at, empty_glyph. destruct (pos_of x (i, j)) as [[]|]; try (split; [discriminate|split; split; congruence]).
    destruct (i =? 0), (i =? fst n - 1), (j =? 0), (j =? snd n - 1); split; try discriminate; split; split; discriminate.
Qed.

(** ** The bytes *)

Lemma lookup_blocks {A} L (rows : list (list A)) i j row : (forall r, r ∈ rows -> length r = L) -> rows !! i = Some row -> j < L ->
  List.concat rows !! (i * L + j) = row !! j.
Proof.
  revert i. induction rows as [|r rows IH]; intros i HL E Hj; [rewrite lookup_nil in E; discriminate|].
  cbn [List.concat]. pose proof (HL r (elem_of_list_here r rows)) as Hr. destruct i as [|i].
  - injection E as <-. cbn [Nat.mul Nat.add]. apply lookup_app_l. lia.
  - rewrite lookup_app_r by lia. replace (S i * L + j - length r) with (i * L + j) by lia.
    apply IH; [intros x Hx; apply HL, elem_of_cons; auto|exact E|exact Hj].
Qed.

Lemma stone_bytes x : x <> NewLine -> length (utf8 (glyph_char x)) = 3.
Proof. destruct x; intros H; try reflexivity. contradiction. Qed.

Lemma row_bytes (row : list glyph) : (forall x, x ∈ row -> x <> NewLine) ->
  length (List.concat (List.map (fun x => utf8 (glyph_char x)) row)) = 3 * length row.
Proof.
  induction row as [|x row IH]; intros H; [reflexivity|]. cbn [List.map List.concat]. rewrite app_length, IH, (stone_bytes x).
  - cbn [length]. lia.
  - apply H, elem_of_list_here.
  - intros y Hy. apply H, elem_of_cons. auto.
Qed.

Definition enc (row : list glyph) : list N := List.concat (List.map (fun x => utf8 (glyph_char x)) row).
Lemma enc_app a b : enc (a ++ b) = enc a ++ enc b.
Proof. unfold enc. rewrite List.map_app, List.concat_app. reflexivity. Qed.
Lemma enc_concat rows : enc (List.concat rows) = List.concat (List.map enc rows).
Proof. induction rows as [|r rows IH]; [reflexivity|]. cbn [List.concat List.map]. rewrite enc_app, IH. reflexivity. Qed.

Lemma block_take {A} (t u : list A) o : length u = 3 -> (forall d, d < 3 -> t !! (o + d) = u !! d) -> take 3 (drop o t) = u.
Proof.
  intros L H. apply list_eq. intros d. destruct (Nat.lt_ge_cases d 3) as [D|D].
  - rewrite lookup_take, lookup_drop by exact D. exact (H d D).
  - rewrite lookup_take_ge by exact D. symmetry. apply lookup_ge_None_2. lia.
Qed.

Theorem rect_text dbg n b w g : Nat.divide (snd n) (fst n) -> rgreach dbg n b w g ->
  exists t, pretty_bytes (gm_goban g) = Ok t /\ length t = fst n * (3 * snd n + 1) /\
    (forall i, i < fst n -> t !! (i * (3 * snd n + 1) + 3 * snd n) = Some 10%N) /\
    (forall i j, ron n (i, j) -> let u := take 3 (drop (i * (3 * snd n + 1) + 3 * j) t) in
       (u = [226; 151; 143]%N <-> position g (i, j) = Some Black) /\ (u = [226; 151; 139]%N <-> position g (i, j) = Some White)).
Proof.
  intros Hd HG. destruct (rect_printout dbg n b w g Hd HG) as (rows & E & Lr & HR).
  assert (HL : forall r, r ∈ List.map enc rows -> length r = 3 * snd n + 1).
  { intros r Hr. apply elem_of_list_In, List.in_map_iff in Hr as (row & <- & Hr). apply elem_of_list_In, elem_of_list_lookup in Hr as (i & Hi).
    assert (Li : i < fst n) by (rewrite <- Lr; apply lookup_lt_Some in Hi; exact Hi). destruct (HR i Li) as (row' & Ei & Ln & Hx). rewrite Hi in Ei. injection Ei as ->.
    rewrite enc_app, app_length. unfold enc at 1. rewrite row_bytes, Ln; [reflexivity|].
    intros x X. apply elem_of_list_lookup in X as (j & Ej). destruct (Hx j) as (y & Ey & Hy & _); [rewrite <- Ln; apply lookup_lt_Some in Ej; exact Ej|]. congruence. }
  exists (List.concat (List.map enc rows)). split; [|split; [|split]].
  - unfold pretty_bytes. rewrite E. cbn [bind]. fold (enc (List.concat rows)). rewrite enc_concat. reflexivity.
  - rewrite <- Lr, <- (map_length enc rows). clear -HL. induction (List.map enc rows) as [|r l IH]; [reflexivity|].
    cbn [List.concat length]. rewrite app_length, IH, (HL r (elem_of_list_here r l)); [lia|]. intros x Hx. apply HL, elem_of_cons. auto.
  - intros i Hi. destruct (HR i Hi) as (row & Ei & Ln & Hx).
    rewrite (lookup_blocks (3 * snd n + 1) _ i (3 * snd n) (enc (row ++ [NewLine])) HL); [|change (@List.map (list glyph)) with (@fmap list _ (list glyph)); rewrite list_lookup_fmap, Ei; reflexivity|lia].
    rewrite enc_app, lookup_app_r; unfold enc at 1; rewrite row_bytes, Ln; [|clear -Hx Ln|lia|clear -Hx Ln].
    + rewrite Nat.sub_diag. reflexivity.
    + intros x X. apply elem_of_list_lookup in X as (j & Ej). destruct (Hx j) as (y & Ey & Hy & _); [rewrite <- Ln; apply lookup_lt_Some in Ej; exact Ej|]. congruence.
    + intros x X. apply elem_of_list_lookup in X as (j & Ej). destruct (Hx j) as (y & Ey & Hy & _); [rewrite <- Ln; apply lookup_lt_Some in Ej; exact Ej|]. congruence.
  - intros i j [Hi Hj] u. cbn [fst snd] in Hi, Hj. destruct (HR i Hi) as (row & Ei & Ln & Hx). destruct (Hx j Hj) as (x & Ex & Nx & HB & HW).
    assert (Hxs : forall x, x ∈ row -> x <> NewLine).
    { intros y X. apply elem_of_list_lookup in X as (j' & Ej). destruct (Hx j') as (z & Ez & Hz & _); [rewrite <- Ln; apply lookup_lt_Some in Ej; exact Ej|]. congruence. }
    assert (Eu : u = utf8 (glyph_char x)).
    { unfold u. apply block_take; [apply stone_bytes, Nx|]. intros d D. rewrite <- Nat.add_assoc.
      rewrite (lookup_blocks (3 * snd n + 1) _ i (3 * j + d) (enc (row ++ [NewLine])) HL); [|change (@List.map (list glyph)) with (@fmap list _ (list glyph)); rewrite list_lookup_fmap, Ei; reflexivity|lia].
      rewrite enc_app, lookup_app_l by (unfold enc; rewrite row_bytes, Ln by exact Hxs; lia).
      replace (3 * j + d) with (j * 3 + d) by lia. unfold enc.
      apply (lookup_blocks 3 _ j d (utf8 (glyph_char x))); [|change (@List.map glyph) with (@fmap list _ glyph); rewrite list_lookup_fmap, Ex; reflexivity|exact D].
      intros r Hr. apply elem_of_list_In, List.in_map_iff in Hr as (y & <- & Hy). apply stone_bytes, Hxs, elem_of_list_In, Hy. }
    rewrite Eu. rewrite <- HB, <- HW. clear. destruct x; cbn; split; split; intros H; try reflexivity; discriminate H.
Qed.

(** on a 6x3 board the second row of the board is not the second row of the matrix *)
Theorem rect_matrix_refuted dbg : exists g b w m, rgreach dbg (6, 3) b w g /\ position g (1, 0) = Some Black /\ matrix (gm_goban g) = Ok m /\
  m !! 1 = Some [None; None; None] /\ m !! 2 = Some [Some Black; None; None].
Proof.
  destruct (rsample dbg 6 3 JAPANESE [MPlay 1 0]) as [g|] eqn:E; [|destruct dbg; vm_compute in E; discriminate].
  destruct (rsample_reach dbg 6 3 JAPANESE _ g ltac:(lia) ltac:(lia) E) as (b & w & HG & _).
  assert (K : match rsample dbg 6 3 JAPANESE [MPlay 1 0] with Some g => has g (1, 0) (Some Black) &&
    match matrix (gm_goban g) with Ok m => bool_decide (m !! 1 = Some [None; None; None]) && bool_decide (m !! 2 = Some [Some Black; None; None]) | _ => false end | None => false end = true)
    by (destruct dbg; vm_compute; reflexivity).
  rewrite E in K. bools K. destruct (matrix (gm_goban g)) as [m| |] eqn:Em; [|discriminate..]. bools K0.
  exists g, b, w, m. split; [exact HG|]. split; [exact (bool_decide_eq_true_1 _ K)|]. split; [exact Em|]. split; [exact (bool_decide_eq_true_1 _ K0)|exact (bool_decide_eq_true_1 _ K1)].
Qed.
