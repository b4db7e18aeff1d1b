(** Games on boards whose width divides their height. *)
From stdpp Require Import relations.
From Verif Require Import MonadFacts Spec Game Builder BitsetFacts CoordFacts Struct Push Inv Remove Capture Bridge GameFacts.
From Verif Require Import RectSpec RectCoord RectInv RectRemove RectCapture RectBridge.
From Coq Require Import Lia.

Lemma rnew_wf n : fits n ->
  exists g, goban_new n = Ok g /\ rwf n g /\ chains g = [] /\ forall i, cell g i = None.
Proof.
  intros Hn. pose proof (fits_wide n Hn) as Hw. pose proof Hn as (Hn1 & _). unfold goban_new.
  replace (fst n <=? 19)%nat with true by (symmetry; apply Nat.leb_le; lia). replace (snd n <=? 19)%nat with true by (symmetry; apply Nat.leb_le; lia). cbn [andb assert_ bind].
  eexists. split; [reflexivity|].
  set (g := mkGoban _ _ _ _ _).
  assert (Hc : forall i, cell g i = None).
  { intros i. unfold cell. cbn [board g]. destruct (@lookup nat (option nat) (list (option nat)) _ i (replicate BOARD_MAX_LENGTH None)) as [x|] eqn:E; [|reflexivity].
    apply lookup_replicate in E as [-> _]. reflexivity. }
  split; [|split; [reflexivity|exact Hc]].
  assert (Hl : forall k, live g k = None) by (intros k; reflexivity).
  constructor.
  - constructor.
    + apply replicate_length.
    + apply replicate_length.
    + cbn. lia.
    + intros i k H. rewrite Hc in H. discriminate.
    + intros k grp H. rewrite Hl in H. discriminate.
  - exact Hn.
  - reflexivity.
  - intros i k H. rewrite Hc in H. discriminate.
  - intros k grp j H. rewrite Hl in H. discriminate.
  - intros i j k k' _ H. rewrite Hc in H. discriminate.
  - intros i j k H. rewrite Hc in H. discriminate.
  - cbn [zobrist_hash g]. unfold hash_of.
    rewrite (foldr_lxor_ext (col g) (fun _ => None)); [symmetry; apply foldr_lxor_none|].
    intros i _. apply col_ext_none, Hc.
Qed.

Lemma rpush_wf dbg n g p c :
  rwf n g -> ron n p -> pos_of g p = None ->
  (push dbg g p c = Panic /\ (N.of_nat (length (chains g)) = 65535)%N /\ ~ rone_friend n (pos_of g) p c) \/
  exists g', push dbg g p c = Ok g' /\ rwf n g' /\
    rsame_pos n (pos_of g') (put (pos_of g) p c) /\
    (rone_friend n (pos_of g) p c /\ length (chains g') = length (chains g) \/
     ~ rone_friend n (pos_of g) p c /\ length (chains g') = S (length (chains g))) /\
    (dslots g <= dslots g')%nat.
Proof.
  intros W Hp He. unfold push. rewrite (rwf_size n g W).
  destruct Hp as [Hp1 Hp2].
  replace (fst p <? fst n)%nat with true by (symmetry; apply Nat.ltb_lt; lia).
  replace (snd p <? snd n)%nat with true by (symmetry; apply Nat.ltb_lt; lia).
  replace (debug_assert dbg (Ok true)) with (Ok tt : res unit) by (destruct dbg; reflexivity). cbn [bind].
  destruct (rmove_spec dbg n g p c false W (conj Hp1 Hp2) He)
    as [[E F]|(g1 & dead & u & g' & rm & ko & E1 & E2 & W1 & W' & HP & L & L' & _)].
  - left. rewrite E. split; [reflexivity|exact F].
  - right. exists g1. rewrite E1. cbn [bind]. split; [reflexivity|]. split; [exact W1|]. split; [exact HP|]. rewrite L'. split; [exact L|].
    destruct p as [r cc]. cbn [fst snd] in *.
    pose proof He as He'. rewrite (rpos_of_col n g (r, cc) W (conj Hp1 Hp2)) in He'. apply (rcol_None n g _ W) in He'.
    destruct (rpush_spec dbg n g r cc c W Hp1 Hp2 He') as [[E _]|(g1' & dead' & u' & E1' & _ & L1 & _ & Hds & _)]; [congruence|].
    rewrite E1 in E1'. injection E1' as <- <- <-. apply dslots_mono; [lia|exact Hds].
Qed.

Lemma rcol_off n g i : rwf n g -> ~ vi n i -> col g i = None.
Proof.
  intros W Hi. unfold col. destruct (cell g i) as [k|] eqn:E; [|reflexivity].
  pose proof (rwf_on n g W i k E). contradiction.
Qed.

Lemma rsame_pos_col n a b : rwf n a -> rwf n b ->
  rsame_pos n (pos_of a) (pos_of b) <-> forall i, col a i = col b i.
Proof.
  intros Wa Wb. split.
  - intros H i. destruct (decide (i / fst n < fst n /\ i mod fst n < snd n)%nat) as [Hi|Hi].
    + specialize (H (rpt n i) (rpt_on n i Hi)).
      rewrite (rpos_of_col n a), (rpos_of_col n b) in H by (try apply rpt_on; assumption).
      rewrite !ridx_pt in H by exact Hi. exact H.
    + rewrite (rcol_off n a i Wa Hi), (rcol_off n b i Wb Hi). reflexivity.
  - intros H p Hp. rewrite (rpos_of_col n a p Wa Hp), (rpos_of_col n b p Wb Hp). apply H.
Qed.

Lemma rgoban_eq_spec n a b : rwf n a -> rwf n b ->
  exists v, goban_eq a b = Ok v /\ (v = true <-> rsame_pos n (pos_of a) (pos_of b)).
Proof.
  intros Wa Wb. unfold goban_eq. rewrite (rwf_size n a Wa), (rwf_size n b Wb).
  rewrite !Nat.eqb_refl. cbn [andb negb orb].
  destruct (N.eqb_spec (zobrist_hash a) (zobrist_hash b)) as [Eh|Eh]; cbn [negb].
  - rewrite (anyM_ok _ (fun p => negb (mcolor_eqb (pos_of a p) (pos_of b p)))).
    + cbn [bind]. eexists. split; [reflexivity|]. rewrite negb_true_iff, existsb_false. split.
      * intros H p Hp. specialize (H p). change (list_prod (seq 0 (fst n)) (seq 0 (snd n))) with (rpoints n) in H.
        specialize (H (proj2 (elem_of_rpoints n p) Hp)). apply negb_false_iff in H.
        destruct (mcolor_eqb_spec (pos_of a p) (pos_of b p)); congruence.
      * intros H p Hp. apply (elem_of_rpoints n p) in Hp. rewrite (H p Hp). apply negb_false_iff.
        destruct (mcolor_eqb_spec (pos_of b p) (pos_of b p)); congruence.
    + intros p Hp. apply (elem_of_rpoints n p) in Hp. rewrite (rget_color_ok n a p Wa Hp), (rget_color_ok n b p Wb Hp). cbn [bind].
      rewrite (rpos_of_col n a p Wa Hp), (rpos_of_col n b p Wb Hp). reflexivity.
  - exists false. split; [reflexivity|]. split; [discriminate|]. intros H. exfalso. apply Eh.
    rewrite (rwf_hash n a Wa), (rwf_hash n b Wb). apply hash_ext. intros i _. apply (rsame_pos_col n a b Wa Wb), H.
Qed.

Lemma rhistory_contains_spec n h x : Forall (rwf n) h -> rwf n x ->
  exists v, history_contains h x = Ok v /\ (v = true <-> exists y, y ∈ h /\ rsame_pos n (pos_of x) (pos_of y)).
Proof.
  intros Hh Wx. unfold history_contains. induction Hh as [|y h Wy Hh (v & E & IH)].
  - exists false. split; [reflexivity|]. split; [discriminate|]. intros (y & H & _). apply elem_of_nil in H. destruct H.
  - cbn [anyM]. destruct (rgoban_eq_spec n x y Wx Wy) as (b & -> & Hb). cbn [bind]. destruct b.
    + exists true. split; [reflexivity|]. split; [|reflexivity]. intros _. exists y. split; [left|]. apply Hb. reflexivity.
    + exists v. split; [exact E|]. rewrite IH. split.
      * intros (z & H1 & H2). exists z. split; [right; exact H1|exact H2].
      * intros (z & H1 & H2). apply elem_of_cons in H1 as [->|H1]; [|eauto]. apply Hb in H2. discriminate.
Qed.

Lemma rhistory_insert_spec n h x : Forall (rwf n) h -> rwf n x ->
  exists h', history_insert h x = Ok h' /\ Forall (rwf n) h' /\
    ((exists y, y ∈ h /\ rsame_pos n (pos_of x) (pos_of y)) /\ h' = h \/
     (~ exists y, y ∈ h /\ rsame_pos n (pos_of x) (pos_of y)) /\ h' = h ++ [x]).
Proof.
  intros Hh Wx. unfold history_insert. destruct (rhistory_contains_spec n h x Hh Wx) as (v & -> & Hv). cbn [bind].
  eexists. split; [reflexivity|]. destruct v.
  - split; [exact Hh|]. left. split; [apply Hv; reflexivity|reflexivity].
  - split; [apply Forall_app; split; [exact Hh|apply Forall_singleton, Wx]|]. right. split; [|reflexivity].
    intros H. apply Hv in H. discriminate.
Qed.

Record rginv (n : size_t) (b w : nat) (g : game) : Prop := rmkGinv {
  rgi_wf : rwf n (gm_goban g);
  rgi_hist : Forall (rwf n) (gm_history g);
  rgi_histlen : Forall (fun x => length (chains x) <= b + w)%nat (gm_history g);
  rgi_passes : (gm_passes g <= 2)%nat;
  rgi_black : (N.of_nat (rcount n (pos_of (gm_goban g)) Black) + snd (gm_prisoners g) = N.of_nat b)%N;
  rgi_white : (N.of_nat (rcount n (pos_of (gm_goban g)) White) + fst (gm_prisoners g) = N.of_nat w)%N;
  rgi_chains : (length (chains (gm_goban g)) <= b + w)%nat;
  rgi_pris : (rem_total (gm_prisoners g) <= 361 * N.of_nat (dslots (gm_goban g)))%N;
  rgi_ko : forall q, gm_ko_point g = Some q -> ron n q
}.

Lemma rcount_put n P p c x : ron n p -> P p = None ->
  rcount n (put P p c) x = (rcount n P x + (if decide (x = c) then 1 else 0))%nat.
Proof.
  intros Hp He. unfold rcount. destruct (decide (x = c)) as [->|Hx].
  - assert (E : filter (fun q => put P p c q = Some c) (rpoints n) ≡ₚ p :: filter (fun q => P q = Some c) (rpoints n)).
    { apply NoDup_Permutation.
      - apply NoDup_filter, NoDup_rpoints.
      - apply NoDup_cons. split; [|apply NoDup_filter, NoDup_rpoints].
        intros H. apply elem_of_list_filter in H as [H _]. congruence.
      - intros q. rewrite elem_of_cons, !elem_of_list_filter, elem_of_rpoints. unfold put.
        destruct (decide (q = p)) as [->|]; [tauto|]. tauto. }
    rewrite (Permutation_length E). cbn. lia.
  - rewrite Nat.add_0_r. f_equal. apply Capture.filter_ext_in. intros q Hq. unfold put.
    destruct (decide (q = p)) as [->|]; [|tauto]. split; congruence.
Qed.

(** One stone move of a game in a state satisfying the invariant. *)
Theorem rplay_spec dbg n b w g x y :
  rginv n b w g -> ron n (x, y) -> pos_of (gm_goban g) (x, y) = None ->
  (play dbg g (MPlay x y) = Panic /\ (N.of_nat (length (chains (gm_goban g))) = 65535)%N /\
   ~ rone_friend n (pos_of (gm_goban g)) (x, y) (gm_turn g)) \/
  exists g',
    play dbg g (MPlay x y) = Ok g' /\
    rginv n (fst (bump_count (gm_turn g) (b, w))) (snd (bump_count (gm_turn g) (b, w))) g' /\
    rgo_move (negb (flag_contains (flag_illegal (gm_rule g)) SUICIDE)) n
            (pos_of (gm_goban g)) (x, y) (gm_turn g) (pos_of (gm_goban g')) /\
    (rone_friend n (pos_of (gm_goban g)) (x, y) (gm_turn g) /\
       length (chains (gm_goban g')) = length (chains (gm_goban g)) \/
     ~ rone_friend n (pos_of (gm_goban g)) (x, y) (gm_turn g) /\
       length (chains (gm_goban g')) = S (length (chains (gm_goban g)))) /\
    gm_passes g' = 0%nat /\ gm_outcome g' = gm_outcome g /\ gm_turn g' = opp (gm_turn g) /\
    gm_rule g' = gm_rule g /\ gm_handicap g' = gm_handicap g /\
    history_insert (gm_history g) (gm_goban g) = Ok (gm_history g') /\
    (forall q, gm_ko_point g' = Some q <->
       ron n q /\ rtaken n (put (pos_of (gm_goban g)) (x, y) (gm_turn g)) (x, y) (gm_turn g) q /\
       forall q', ron n q' -> rtaken n (put (pos_of (gm_goban g)) (x, y) (gm_turn g)) (x, y) (gm_turn g) q' -> q' = q).
Proof.
  intros G Hp He. set (gb := gm_goban g) in *. set (c := gm_turn g) in *.
  set (s := negb (flag_contains (flag_illegal (gm_rule g)) SUICIDE)).
  destruct (rhistory_insert_spec n (gm_history g) gb (rgi_hist _ _ _ _ G) (rgi_wf _ _ _ _ G)) as (h' & Eh & Wh & Hh').
  assert (Hlh : Forall (fun x => length (chains x) <= b + w)%nat h').
  { destruct Hh' as [[_ ->]|[_ ->]]; [apply (rgi_histlen _ _ _ _ G)|].
    apply Forall_app. split; [apply (rgi_histlen _ _ _ _ G)|apply Forall_singleton, (rgi_chains _ _ _ _ G)]. }
  unfold play. fold gb c. rewrite Eh. cbn [bind].
  destruct (rmove_spec dbg n gb (x, y) c s (rgi_wf _ _ _ _ G) Hp He)
    as [[E F]|(g1 & dead & u & g2 & rm & ko & E1 & E2 & W1 & W2 & HP & L & L' & HM & R & RT & K & _)].
  - left. rewrite E. cbn [bind]. split; [reflexivity|exact F].
  - right. rewrite E1. cbn [bind]. unfold game_remove_captured_stones. fold s. rewrite E2.
    destruct rm as [rb rw]. cbn [bind].
    pose proof (rgi_pris _ _ _ _ G) as HP0. fold gb in HP0.
    pose proof (dslots_le g2) as Hd. pose proof (wf0_len g2 (rwf_0 n g2 W2)) as Hlen.
    assert (Htot : (fst (gm_prisoners g) + snd (gm_prisoners g) + rb + rw < 4294967296)%N).
    { unfold rem_total in *. cbn [fst snd] in *. lia. }
    rewrite !u32_add_ok by lia. cbn [bind]. eexists. split; [reflexivity|].
    pose proof (R White) as RW. pose proof (R Black) as RB. cbn [rem_of fst snd] in RW, RB.
    rewrite (rcount_put n _ _ _ White Hp He) in RW. rewrite (rcount_put n _ _ _ Black Hp He) in RB.
    pose proof (rgi_black _ _ _ _ G) as GB. pose proof (rgi_white _ _ _ _ G) as GW. fold gb in GB, GW.
    pose proof (rgi_chains _ _ _ _ G) as GC. fold gb in GC.
    split.
    { constructor; cbn [gm_goban gm_history gm_passes gm_prisoners gm_ko_point fst snd].
      - exact W2.
      - exact Wh.
      - eapply Forall_impl; [exact Hlh|]. intros z Hz. destruct c; cbn [bump_count fst snd]; cbn in Hz; lia.
      - lia.
      - destruct c; cbn [bump_count fst snd]; repeat destruct (decide _); try congruence; lia.
      - destruct c; cbn [bump_count fst snd]; repeat destruct (decide _); try congruence; lia.
      - destruct c; cbn [bump_count fst snd]; lia.
      - unfold rem_total in *. cbn [fst snd] in *. lia.
      - intros q Hq. apply K in Hq. tauto. }
    split; [exact HM|]. split; [exact L|]. do 5 (split; [reflexivity|]). split; [reflexivity|]. exact K.
Qed.

Lemma rginv_same_board n b w g g' :
  rginv n b w g -> gm_goban g' = gm_goban g -> gm_history g' = gm_history g ->
  gm_prisoners g' = gm_prisoners g -> (gm_passes g' <= 2)%nat ->
  (forall q, gm_ko_point g' = Some q -> ron n q) -> rginv n b w g'.
Proof. intros [] E1 E2 E3 H K. constructor; rewrite ?E1, ?E2, ?E3; assumption. Qed.
