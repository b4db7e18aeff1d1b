(** Games: reachable states and their invariant. *)
From stdpp Require Import relations.
From Verif Require Import MonadFacts Spec Game Builder BitsetFacts CoordFacts Struct Push Inv Remove Capture Bridge.
From Coq Require Import Lia.

(** ** Boards *)

Lemma col_ext_none g : (forall i, cell g i = None) -> forall i, col g i = None.
Proof. intros H i. unfold col. rewrite H. reflexivity. Qed.

Lemma foldr_lxor_none l : foldr (fun i acc => N.lxor (zopt i None) acc) 0%N l = 0%N.
Proof. induction l as [|a l IH]; [reflexivity|]. cbn [foldr]. rewrite IH. reflexivity. Qed.

Lemma new_wf n : (1 <= n <= 19)%nat ->
  exists g, goban_new (n, n) = Ok g /\ wf n g /\ chains g = [] /\ forall i, cell g i = None.
Proof.
  intros Hn. unfold goban_new. cbn [fst snd].
  replace (n <=? 19)%nat with true by (symmetry; apply Nat.leb_le; lia). cbn [andb assert_ bind].
  eexists. split; [reflexivity|].
  set (g := mkGoban _ _ _ _ _).
  assert (Hc : forall i, cell g i = None).
  { intros i. unfold cell. cbn [board g]. destruct (@lookup nat (option nat) (list (option nat)) _ i (replicate BOARD_MAX_LENGTH None)) as [x|] eqn:E; [|reflexivity].
    apply lookup_replicate in E as [-> _]. reflexivity. }
  split; [|split; [reflexivity|exact Hc]].
  assert (Hl : forall k, live g k = None) by (intros k; reflexivity).
  constructor.
  - constructor.
    + apply replicate_length.
    + apply replicate_length.
    + cbn. lia.
    + intros i k H. rewrite Hc in H. discriminate.
    + intros k grp H. rewrite Hl in H. discriminate.
  - exact Hn.
  - reflexivity.
  - intros i k H. rewrite Hc in H. discriminate.
  - intros k grp j H. rewrite Hl in H. discriminate.
  - intros i j k k' _ H. rewrite Hc in H. discriminate.
  - intros i j k H. rewrite Hc in H. discriminate.
  - cbn [zobrist_hash g]. unfold hash_of.
    rewrite (foldr_lxor_ext (col g) (fun _ => None)); [symmetry; apply foldr_lxor_none|].
    intros i _. apply col_ext_none, Hc.
Qed.

Lemma new_size s g : goban_new s = Ok g -> gsize g = s /\ (fst s <= 19 /\ snd s <= 19)%nat.
Proof.
  intros H. unfold goban_new in H. apply bind_ok in H as (u & Ha & H). injection H as <-. split; [reflexivity|].
  unfold assert_ in Ha. destruct ((fst s <=? 19)%nat && (snd s <=? 19)%nat) eqn:E; [|discriminate].
  apply andb_true_iff in E as [E1 E2]. apply Nat.leb_le in E1, E2. tauto.
Qed.

Lemma push_wf dbg n g p c :
  wf n g -> on n p -> pos_of g p = None ->
  (push dbg g p c = Panic /\ (N.of_nat (length (chains g)) = 65535)%N /\ ~ one_friend n (pos_of g) p c) \/
  exists g', push dbg g p c = Ok g' /\ wf n g' /\
    same_pos n (pos_of g') (put (pos_of g) p c) /\
    (one_friend n (pos_of g) p c /\ length (chains g') = length (chains g) \/
     ~ one_friend n (pos_of g) p c /\ length (chains g') = S (length (chains g))) /\
    (dslots g <= dslots g')%nat.
Proof.
  intros W Hp He. unfold push. rewrite (wf_size n g W). cbn [fst snd].
  destruct Hp as [Hp1 Hp2].
  replace (fst p <? n)%nat with true by (symmetry; apply Nat.ltb_lt; lia).
  replace (snd p <? n)%nat with true by (symmetry; apply Nat.ltb_lt; lia).
  replace (debug_assert dbg (Ok true)) with (Ok tt : res unit) by (destruct dbg; reflexivity). cbn [bind].
  destruct (move_spec dbg n g p c false W (conj Hp1 Hp2) He)
    as [[E F]|(g1 & dead & u & g' & rm & ko & E1 & E2 & W1 & W' & HP & L & L' & _)].
  - left. rewrite E. split; [reflexivity|exact F].
  - right. exists g1. rewrite E1. cbn [bind]. split; [reflexivity|]. split; [exact W1|]. split; [exact HP|]. rewrite L'. split; [exact L|].
    destruct p as [r cc]. cbn [fst snd] in *.
    pose proof He as He'. rewrite (pos_of_col n g (r, cc) W (conj Hp1 Hp2)) in He'. apply (col_None n g _ W) in He'.
    destruct (push_spec dbg n g r cc c W Hp1 Hp2 He') as [[E _]|(g1' & dead' & u' & E1' & _ & L1 & _ & Hds & _)]; [congruence|].
    rewrite E1 in E1'. injection E1' as <- <- <-. apply dslots_mono; [lia|exact Hds].
Qed.

(** ** Equality *)

Lemma mcolor_eqb_spec a b : reflect (a = b) (mcolor_eqb a b).
Proof.
  destruct a as [a|], b as [b|]; cbn; try (constructor; congruence).
  destruct (color_eqb_spec a b); constructor; congruence.
Qed.

Lemma col_off n g i : wf n g -> (n * n <= i)%nat -> col g i = None.
Proof.
  intros W Hi. unfold col. destruct (cell g i) as [k|] eqn:E; [|reflexivity].
  pose proof (wf_on n g W i k E). lia.
Qed.

Lemma same_pos_col n a b : wf n a -> wf n b ->
  same_pos n (pos_of a) (pos_of b) <-> forall i, col a i = col b i.
Proof.
  intros Wa Wb. split.
  - intros H i. destruct (Nat.lt_ge_cases i (n * n)) as [Hi|Hi].
    + specialize (H (pt n i) (pt_on n i Hi)).
      rewrite (pos_of_col n a), (pos_of_col n b) in H by (try apply pt_on; assumption).
      rewrite !idx_pt in H by exact Hi. exact H.
    + rewrite (col_off n a i Wa Hi), (col_off n b i Wb Hi). reflexivity.
  - intros H p Hp. rewrite (pos_of_col n a p Wa Hp), (pos_of_col n b p Wb Hp). apply H.
Qed.

Lemma goban_eq_spec n a b : wf n a -> wf n b ->
  exists v, goban_eq a b = Ok v /\ (v = true <-> same_pos n (pos_of a) (pos_of b)).
Proof.
  intros Wa Wb. unfold goban_eq. rewrite (wf_size n a Wa), (wf_size n b Wb). cbn [fst snd].
  rewrite !Nat.eqb_refl. cbn [andb negb orb].
  destruct (N.eqb_spec (zobrist_hash a) (zobrist_hash b)) as [Eh|Eh]; cbn [negb].
  - rewrite (anyM_ok _ (fun p => negb (mcolor_eqb (pos_of a p) (pos_of b p)))).
    + cbn [bind]. eexists. split; [reflexivity|]. rewrite negb_true_iff, existsb_false. split.
      * intros H p Hp. specialize (H p). change (list_prod (seq 0 n) (seq 0 n)) with (points n) in H.
        specialize (H (proj2 (elem_of_points n p) Hp)). apply negb_false_iff in H.
        destruct (mcolor_eqb_spec (pos_of a p) (pos_of b p)); congruence.
      * intros H p Hp. apply (elem_of_points n p) in Hp. rewrite (H p Hp). apply negb_false_iff.
        destruct (mcolor_eqb_spec (pos_of b p) (pos_of b p)); congruence.
    + intros p Hp. apply (elem_of_points n p) in Hp. rewrite (get_color_ok n a p Wa Hp), (get_color_ok n b p Wb Hp). cbn [bind].
      rewrite (pos_of_col n a p Wa Hp), (pos_of_col n b p Wb Hp). reflexivity.
  - exists false. split; [reflexivity|]. split; [discriminate|]. intros H. exfalso. apply Eh.
    rewrite (wf_hash n a Wa), (wf_hash n b Wb). apply hash_ext. intros i _. apply (same_pos_col n a b Wa Wb), H.
Qed.

Lemma history_contains_spec n h x : Forall (wf n) h -> wf n x ->
  exists v, history_contains h x = Ok v /\ (v = true <-> exists y, y ∈ h /\ same_pos n (pos_of x) (pos_of y)).
Proof.
  intros Hh Wx. unfold history_contains. induction Hh as [|y h Wy Hh (v & E & IH)].
  - exists false. split; [reflexivity|]. split; [discriminate|]. intros (y & H & _). apply elem_of_nil in H. destruct H.
  - cbn [anyM]. destruct (goban_eq_spec n x y Wx Wy) as (b & -> & Hb). cbn [bind]. destruct b.
    + exists true. split; [reflexivity|]. split; [|reflexivity]. intros _. exists y. split; [left|]. apply Hb. reflexivity.
    + exists v. split; [exact E|]. rewrite IH. split.
      * intros (z & H1 & H2). exists z. split; [right; exact H1|exact H2].
      * intros (z & H1 & H2). apply elem_of_cons in H1 as [->|H1]; [|eauto]. apply Hb in H2. discriminate.
Qed.

Lemma history_insert_spec n h x : Forall (wf n) h -> wf n x ->
  exists h', history_insert h x = Ok h' /\ Forall (wf n) h' /\
    ((exists y, y ∈ h /\ same_pos n (pos_of x) (pos_of y)) /\ h' = h \/
     (~ exists y, y ∈ h /\ same_pos n (pos_of x) (pos_of y)) /\ h' = h ++ [x]).
Proof.
  intros Hh Wx. unfold history_insert. destruct (history_contains_spec n h x Hh Wx) as (v & -> & Hv). cbn [bind].
  eexists. split; [reflexivity|]. destruct v.
  - split; [exact Hh|]. left. split; [apply Hv; reflexivity|reflexivity].
  - split; [apply Forall_app; split; [exact Hh|apply Forall_singleton, Wx]|]. right. split; [|reflexivity].
    intros H. apply Hv in H. discriminate.
Qed.

(** ** The invariant of games *)

Record ginv (n b w : nat) (g : game) : Prop := mkGinv {
  gi_wf : wf n (gm_goban g);
  gi_hist : Forall (wf n) (gm_history g);
  gi_histlen : Forall (fun x => length (chains x) <= b + w)%nat (gm_history g);
  gi_passes : (gm_passes g <= 2)%nat;
  gi_black : (N.of_nat (count n (pos_of (gm_goban g)) Black) + snd (gm_prisoners g) = N.of_nat b)%N;
  gi_white : (N.of_nat (count n (pos_of (gm_goban g)) White) + fst (gm_prisoners g) = N.of_nat w)%N;
  gi_chains : (length (chains (gm_goban g)) <= b + w)%nat;
  gi_pris : (rem_total (gm_prisoners g) <= 361 * N.of_nat (dslots (gm_goban g)))%N;
  gi_ko : forall q, gm_ko_point g = Some q -> on n q
}.

Lemma count_put n P p c x : on n p -> P p = None ->
  count n (put P p c) x = (count n P x + (if decide (x = c) then 1 else 0))%nat.
Proof.
  intros Hp He. unfold count. destruct (decide (x = c)) as [->|Hx].
  - assert (E : filter (fun q => put P p c q = Some c) (points n) ≡ₚ p :: filter (fun q => P q = Some c) (points n)).
    { apply NoDup_Permutation.
      - apply NoDup_filter, NoDup_points.
      - apply NoDup_cons. split; [|apply NoDup_filter, NoDup_points].
        intros H. apply elem_of_list_filter in H as [H _]. congruence.
      - intros q. rewrite elem_of_cons, !elem_of_list_filter, elem_of_points. unfold put.
        destruct (decide (q = p)) as [->|]; [tauto|]. tauto. }
    rewrite (Permutation_length E). cbn. lia.
  - rewrite Nat.add_0_r. f_equal. apply Capture.filter_ext_in. intros q Hq. unfold put.
    destruct (decide (q = p)) as [->|]; [|tauto]. split; congruence.
Qed.

Lemma u32_add_ok dbg a b : (a + b < 4294967296)%N -> u32_add dbg a b = Ok (a + b)%N.
Proof. intros H. unfold u32_add. apply N.ltb_lt in H. rewrite H. reflexivity. Qed.

(** One stone move of a game in a state satisfying the invariant. *)
Theorem play_spec dbg n b w g x y :
  ginv n b w g -> on n (x, y) -> pos_of (gm_goban g) (x, y) = None ->
  (play dbg g (MPlay x y) = Panic /\ (N.of_nat (length (chains (gm_goban g))) = 65535)%N /\
   ~ one_friend n (pos_of (gm_goban g)) (x, y) (gm_turn g)) \/
  exists g',
    play dbg g (MPlay x y) = Ok g' /\
    ginv n (fst (bump_count (gm_turn g) (b, w))) (snd (bump_count (gm_turn g) (b, w))) g' /\
    go_move (negb (flag_contains (flag_illegal (gm_rule g)) SUICIDE)) n
            (pos_of (gm_goban g)) (x, y) (gm_turn g) (pos_of (gm_goban g')) /\
    (one_friend n (pos_of (gm_goban g)) (x, y) (gm_turn g) /\
       length (chains (gm_goban g')) = length (chains (gm_goban g)) \/
     ~ one_friend n (pos_of (gm_goban g)) (x, y) (gm_turn g) /\
       length (chains (gm_goban g')) = S (length (chains (gm_goban g)))) /\
    gm_passes g' = 0%nat /\ gm_outcome g' = gm_outcome g /\ gm_turn g' = opp (gm_turn g) /\
    gm_rule g' = gm_rule g /\ gm_handicap g' = gm_handicap g /\
    history_insert (gm_history g) (gm_goban g) = Ok (gm_history g') /\
    (forall q, gm_ko_point g' = Some q <->
       on n q /\ taken n (put (pos_of (gm_goban g)) (x, y) (gm_turn g)) (x, y) (gm_turn g) q /\
       forall q', on n q' -> taken n (put (pos_of (gm_goban g)) (x, y) (gm_turn g)) (x, y) (gm_turn g) q' -> q' = q).
Proof.
  intros G Hp He. set (gb := gm_goban g) in *. set (c := gm_turn g) in *.
  set (s := negb (flag_contains (flag_illegal (gm_rule g)) SUICIDE)).
  destruct (history_insert_spec n (gm_history g) gb (gi_hist _ _ _ _ G) (gi_wf _ _ _ _ G)) as (h' & Eh & Wh & Hh').
  assert (Hlh : Forall (fun x => length (chains x) <= b + w)%nat h').
  { destruct Hh' as [[_ ->]|[_ ->]]; [apply (gi_histlen _ _ _ _ G)|].
    apply Forall_app. split; [apply (gi_histlen _ _ _ _ G)|apply Forall_singleton, (gi_chains _ _ _ _ G)]. }
  unfold play. fold gb c. rewrite Eh. cbn [bind].
  destruct (move_spec dbg n gb (x, y) c s (gi_wf _ _ _ _ G) Hp He)
    as [[E F]|(g1 & dead & u & g2 & rm & ko & E1 & E2 & W1 & W2 & HP & L & L' & HM & R & RT & K & _)].
  - left. rewrite E. cbn [bind]. split; [reflexivity|exact F].
  - right. rewrite E1. cbn [bind]. unfold game_remove_captured_stones. fold s. rewrite E2.
    destruct rm as [rb rw]. cbn [bind].
    pose proof (gi_pris _ _ _ _ G) as HP0. fold gb in HP0.
    pose proof (dslots_le g2) as Hd. pose proof (wf0_len g2 (wf_0 n g2 W2)) as Hlen.
    assert (Htot : (fst (gm_prisoners g) + snd (gm_prisoners g) + rb + rw < 4294967296)%N).
    { unfold rem_total in *. cbn [fst snd] in *. lia. }
    rewrite !u32_add_ok by lia. cbn [bind]. eexists. split; [reflexivity|].
    pose proof (R White) as RW. pose proof (R Black) as RB. cbn [rem_of fst snd] in RW, RB.
    rewrite (count_put n _ _ _ White Hp He) in RW. rewrite (count_put n _ _ _ Black Hp He) in RB.
    pose proof (gi_black _ _ _ _ G) as GB. pose proof (gi_white _ _ _ _ G) as GW. fold gb in GB, GW.
    pose proof (gi_chains _ _ _ _ G) as GC. fold gb in GC.
    split.
    { constructor; cbn [gm_goban gm_history gm_passes gm_prisoners gm_ko_point fst snd].
      - exact W2.
      - exact Wh.
      - eapply Forall_impl; [exact Hlh|]. intros z Hz. destruct c; cbn [bump_count fst snd]; cbn in Hz; lia.
      - lia.
      - destruct c; cbn [bump_count fst snd]; repeat destruct (decide _); try congruence; lia.
      - destruct c; cbn [bump_count fst snd]; repeat destruct (decide _); try congruence; lia.
      - destruct c; cbn [bump_count fst snd]; lia.
      - unfold rem_total in *. cbn [fst snd] in *. lia.
      - intros q Hq. apply K in Hq. tauto. }
    split; [exact HM|]. split; [exact L|]. do 5 (split; [reflexivity|]). split; [reflexivity|]. exact K.
Qed.

Lemma ginv_same_board n b w g g' :
  ginv n b w g -> gm_goban g' = gm_goban g -> gm_history g' = gm_history g ->
  gm_prisoners g' = gm_prisoners g -> (gm_passes g' <= 2)%nat ->
  (forall q, gm_ko_point g' = Some q -> on n q) -> ginv n b w g'.
Proof. intros [] E1 E2 E3 H K. constructor; rewrite ?E1, ?E2, ?E3; assumption. Qed.

Lemma of_color_cons x p c l :
  of_color x ((p, c) :: l) = ((if decide (x = c) then 1 else 0) + of_color x l)%nat.
Proof.
  unfold of_color. cbn [List.filter snd].
  destruct (color_eqb_spec c x) as [->|]; [rewrite decide_True by reflexivity|rewrite decide_False by congruence]; reflexivity.
Qed.

Lemma of_color_total l : length l = (of_color Black l + of_color White l)%nat.
Proof.
  induction l as [|[p c] l IH]; [reflexivity|]. rewrite !of_color_cons. cbn [length].
  destruct c; repeat destruct (decide _); try congruence; lia.
Qed.

(** pushing a list of stones on distinct empty points *)
Lemma push_list_wf dbg n (l : list stone) :
  forall g, wf n g -> NoDup l.*1 ->
  (forall s, s ∈ l -> on n (fst s) /\ pos_of g (fst s) = None) ->
  (foldM (fun g s => push dbg g (fst s) (snd s)) l g = Panic /\ (65535 < N.of_nat (length (chains g)) + N.of_nat (length l))%N) \/
  exists g', foldM (fun g s => push dbg g (fst s) (snd s)) l g = Ok g' /\ wf n g' /\
    (forall p, on n p -> pos_of g' p = match List.find (fun s => coord_eqb (fst s) p) l with
                                       | Some s => Some (snd s) | None => pos_of g p end) /\
    (length (chains g) <= length (chains g') <= length (chains g) + length l)%nat /\
    (forall x, count n (pos_of g') x = count n (pos_of g) x + of_color x l)%nat /\
    (dslots g <= dslots g')%nat.
Proof.
  assert (Hceq : forall a b : coord, coord_eqb a b = true <-> a = b).
  { intros [a1 a2] [b1 b2]. unfold coord_eqb. cbn. rewrite andb_true_iff, !Nat.eqb_eq. split; [intros [-> ->]; reflexivity|intros [= -> ->]; tauto]. }
  induction l as [|[p c] l IH]; intros g W Hnd Hl.
  - right. exists g. split; [reflexivity|]. split; [exact W|]. split; [reflexivity|]. cbn. split; [lia|]. split; [intros x; lia|lia].
  - cbn [foldM fst snd length]. rewrite fmap_cons in Hnd. cbn [fst] in Hnd. apply NoDup_cons in Hnd as [Hpn Hnd].
    destruct (Hl (p, c)) as [Hp He]; [left|]. cbn [fst] in Hp, He.
    destruct (push_wf dbg n g p c W Hp He) as [[E F]|(g1 & E1 & W1 & HP & L & D1)].
    + left. rewrite E. cbn [bind]. split; [reflexivity|]. lia.
    + rewrite E1. cbn [bind]. destruct (IH g1 W1 Hnd) as [[E F]|(g2 & E2 & W2 & HP2 & L2 & C2 & D2)].
      * intros s Hs. destruct (Hl s) as [H1 H2]; [right; exact Hs|]. split; [exact H1|].
        rewrite (HP _ H1). unfold put. destruct (decide (fst s = p)) as [D|D]; [|exact H2].
        exfalso. apply Hpn. rewrite <- D. apply elem_of_list_fmap. eauto.
      * left. rewrite E. split; [reflexivity|]. lia.
      * right. exists g2. split; [exact E2|]. split; [exact W2|]. split; [|split; [lia|split; [|lia]]].
        -- intros q Hq. rewrite (HP2 q Hq). cbn [List.find fst snd].
           destruct (coord_eqb p q) eqn:Eq.
           ++ apply Hceq in Eq. subst q. destruct (List.find (fun s => coord_eqb (fst s) p) l) as [s|] eqn:Ef.
              ** apply find_some in Ef as [H1 H2]. apply Hceq in H2. exfalso. apply Hpn. rewrite <- H2.
                 apply elem_of_list_fmap. exists s. split; [reflexivity|apply elem_of_list_In, H1].
              ** rewrite (HP p Hp). unfold put. destruct (decide (p = p)); [reflexivity|contradiction].
           ++ destruct (List.find (fun s => coord_eqb (fst s) q) l) as [s|]; [reflexivity|].
              rewrite (HP q Hq). unfold put. destruct (decide (q = p)) as [->|]; [|reflexivity].
              assert (coord_eqb p p = true) by (apply Hceq; reflexivity). congruence.
        -- intros x. rewrite C2, (count_ext n _ _ x HP), (count_put n _ _ _ _ Hp He), of_color_cons. lia.
Qed.

(** ** Reachable games and boards *)

Lemma new_le n g : goban_new (n, n) = Ok g -> (n <= 19)%nat.
Proof. intros H. apply new_size in H as [_ H]. cbn in H. lia. Qed.

Lemma pos_new n g p : wf n g -> (forall i, cell g i = None) -> on n p -> pos_of g p = None.
Proof. intros W H Hp. rewrite (pos_of_col n g p W Hp). apply col_ext_none, H. Qed.

Lemma count_none n P c : (forall p, on n p -> P p = None) -> count n P c = 0%nat.
Proof.
  intros H. unfold count. assert (filter (fun p => P p = Some c) (points n) = []) as ->; [|reflexivity].
  destruct (filter _ _) as [|p l] eqn:E; [reflexivity|]. exfalso.
  assert (Hp : p ∈ filter (fun p => P p = Some c) (points n)) by (rewrite E; left).
  apply elem_of_list_filter in Hp as [H1 H2]. apply elem_of_points in H2. rewrite (H p H2) in H1. discriminate.
Qed.

Lemma ginv_new n s r g : (1 <= n)%nat -> size_of s = (n, n) -> game_new s r = Ok g -> ginv n 0 0 g.
Proof.
  intros Hn Hs H. unfold game_new in H. rewrite Hs in H. apply bind_ok in H as (gb & E & H). injection H as <-.
  pose proof (new_le n gb E). destruct (new_wf n ltac:(lia)) as (gb' & E' & W & Hc & Hcell).
  rewrite E in E'. injection E' as <-.
  assert (C : forall x, count n (pos_of gb) x = 0%nat).
  { intros x. apply count_none. intros p Hp. apply (pos_new n); assumption. }
  constructor; cbn [gm_goban gm_history gm_passes gm_prisoners gm_ko_point fst snd].
  - exact W.
  - constructor.
  - constructor.
  - lia.
  - rewrite C. reflexivity.
  - rewrite C. reflexivity.
  - rewrite Hc. cbn. lia.
  - unfold rem_total. cbn. lia.
  - discriminate.
Qed.

Lemma fold_handicap dbg pts : forall gb,
  foldM (fun gb p => push dbg gb p Black) pts gb =
  foldM (fun gb s => push dbg gb (fst s) (snd s)) (List.map (fun p => (p, Black)) pts) gb.
Proof.
  induction pts as [|p pts IH]; intros gb; [reflexivity|]. cbn [foldM List.map fst snd].
  destruct (push dbg gb p Black); cbn [bind]; [apply IH|reflexivity..].
Qed.

Lemma foldM_ext {A S} (f f' : S -> A -> res S) l : (forall s x, f s x = f' s x) -> forall s, foldM f l s = foldM f' l s.
Proof.
  intros H. induction l as [|x l IH]; intros s; [reflexivity|]. cbn. rewrite H. destruct (f' s x); cbn; [apply IH|reflexivity..].
Qed.

Lemma setup_fold dbg bl gb :
  (let! gb := foldM (fun gb p => push dbg gb p Black) (b_handicap_points bl) gb in
   foldM (fun gb s => push_stone dbg gb s) (b_setup bl) gb) =
  foldM (fun gb s => push dbg gb (fst s) (snd s)) (setup_stones bl) gb.
Proof.
  unfold setup_stones. rewrite foldM_app, fold_handicap.
  destruct (foldM _ _ gb) as [gb'| |]; cbn [bind]; [|reflexivity..].
  apply foldM_ext. intros s [p c]. reflexivity.
Qed.

Definition built (bl : builder) (gb : goban) : game :=
  mkGame gb 0 (0%N, 0%N) (b_outcome bl)
    (match b_turn bl with
     | Some t => t
     | None => if (match b_handicap bl with Some h => h | None => len_as_u32 (b_handicap_points bl) end =? 0)%N
               then Black else White end)
    (match b_komi bl with
     | Some k => mkRule k (flag_illegal (b_rule bl)) (flag_score (b_rule bl))
     | None => b_rule bl end)
    (match b_handicap bl with Some h => h | None => len_as_u32 (b_handicap_points bl) end) [] None.

Lemma build_inner_eq dbg bl :
  build_inner dbg bl =
  let! gb0 := goban_new (b_size bl) in
  let! gb := foldM (fun gb s => push dbg gb (fst s) (snd s)) (setup_stones bl) gb0 in
  foldM (fun g m => play dbg g m) (b_moves bl) (built bl gb).
Proof.
  unfold build_inner. destruct (goban_new (b_size bl)) as [gb0| |]; cbn [bind]; [|reflexivity..].
  rewrite <- setup_fold. destruct (foldM _ (b_handicap_points bl) gb0) as [gb1| |]; cbn [bind]; reflexivity.
Qed.

Lemma ginv_build dbg n bl g :
  (1 <= n)%nat -> b_size bl = (n, n) -> b_moves bl = [] ->
  NoDup (setup_stones bl).*1 -> (forall s, s ∈ setup_stones bl -> on n (fst s)) ->
  build_inner dbg bl = Ok g ->
  ginv n (of_color Black (setup_stones bl))
         (of_color White (setup_stones bl)) g.
Proof.
  intros Hn Hs Hm Nd Hon E. rewrite build_inner_eq, Hs, Hm in E.
  apply bind_ok in E as (gb0 & E0 & E). pose proof (new_le n gb0 E0).
  destruct (new_wf n ltac:(lia)) as (gb' & E' & W & Hc & Hcell). rewrite E0 in E'. injection E' as <-.
  destruct (push_list_wf dbg n (setup_stones bl) gb0 W Nd) as [[Ep _]|(g1 & E1 & W1 & HP & L & C & D)].
  { intros s Hs'. split; [apply Hon, Hs'|]. apply (pos_new n); [exact W|exact Hcell|apply Hon, Hs']. }
  { rewrite Ep in E. discriminate. }
  rewrite E1 in E. cbn [bind foldM] in E. injection E as <-.
  assert (C0 : forall x, count n (pos_of gb0) x = 0%nat).
  { intros x. apply count_none. intros p Hp. apply (pos_new n); assumption. }
  pose proof (of_color_total (setup_stones bl)) as Hlen.
  unfold built.
  constructor; cbn [gm_goban gm_history gm_passes gm_prisoners gm_ko_point fst snd].
  - exact W1.
  - constructor.
  - constructor.
  - lia.
  - rewrite C, C0. lia.
  - rewrite C, C0. lia.
  - rewrite Hc in L. cbn in L. lia.
  - unfold rem_total. cbn. lia.
  - discriminate.
Qed.

Lemma ginv_handicap dbg n b w g pts g' :
  ginv n b w g -> NoDup pts -> (forall p, p ∈ pts -> on n p /\ pos_of (gm_goban g) p = None) ->
  put_handicap dbg g pts = Ok g' -> ginv n (b + length pts) w g' /\
  (forall p, on n p -> pos_of (gm_goban g') p = if decide (p ∈ pts) then Some Black else pos_of (gm_goban g) p).
Proof.
  intros G Nd Hp H. unfold put_handicap in H. rewrite fold_handicap in H.
  assert (F : (List.map (fun p : coord => (p, Black)) pts).*1 = pts).
  { clear. induction pts as [|p pts IH]; [reflexivity|]. cbn. rewrite IH. reflexivity. }
  apply bind_ok in H as (gb & E & H). injection H as <-.
  destruct (push_list_wf dbg n (List.map (fun p => (p, Black)) pts) (gm_goban g) (gi_wf _ _ _ _ G))
    as [[Ep _]|(g1 & E1 & W1 & HP & L & C & D)].
  { rewrite F. exact Nd. }
  { intros s Hs. apply elem_of_lmap in Hs as (p & -> & Hpp). apply Hp, Hpp. }
  { rewrite Ep in E. discriminate. }
  rewrite E1 in E. injection E as ->.
  assert (FB : of_color Black (List.map (fun p => (p, Black)) pts) = length pts).
  { clear. induction pts as [|p pts IH]; [reflexivity|]. cbn [List.map]. rewrite of_color_cons, IH. reflexivity. }
  assert (FW : of_color White (List.map (fun p => (p, Black)) pts) = 0%nat).
  { clear. induction pts as [|p pts IH]; [reflexivity|]. cbn [List.map]. rewrite of_color_cons, IH. reflexivity. }
  rewrite map_length in L. destruct G as [G1 G2 G2' G3 G4 G5 G6 G7 G8]. split.
  - constructor; cbn [gm_goban gm_history gm_passes gm_prisoners gm_ko_point fst snd]; try assumption.
    + eapply Forall_impl; [exact G2'|]. intros z Hz. cbn in Hz. lia.
    + rewrite C, FB. lia.
    + rewrite C, FW. lia.
    + lia.
    + lia.
  - intros p Hpo. cbn [gm_goban]. rewrite (HP p Hpo).
    assert (Hceq : forall a b : coord, coord_eqb a b = true <-> a = b).
    { intros [a1 a2] [b1 b2]. unfold coord_eqb. cbn. rewrite andb_true_iff, !Nat.eqb_eq. split; [intros [-> ->]; reflexivity|intros [= -> ->]; tauto]. }
    destruct (List.find _ _) as [s|] eqn:Ef.
    + apply find_some in Ef as [H1 H2]. apply elem_of_list_In, elem_of_lmap in H1 as (q & -> & Hq). cbn in H2. apply Hceq in H2. subst q.
      rewrite decide_True by exact Hq. reflexivity.
    + destruct (decide (p ∈ pts)) as [D'|]; [|reflexivity]. exfalso.
      pose proof (find_none _ _ Ef (p, Black)) as Hn. cbn in Hn.
      assert (coord_eqb p p = true) by (apply Hceq; reflexivity).
      rewrite Hn in *; [discriminate|]. apply elem_of_list_In, elem_of_lmap. eauto.
Qed.

Theorem greach_inv dbg n b w g : greach dbg n b w g -> ginv n b w g.
Proof.
  induction 1 as [s r g Hn Hs E|bl g Hn Hs Hm Nd Hon E|b w g x y g' _ G Hp He E|b w g g' _ G E|b w g c g' _ G E|b w g _ G|b w g k _ G
                 |b w g pts g' _ G Nd Hp E].
  - eapply ginv_new; eassumption.
  - eapply ginv_build; eassumption.
  - destruct (play_spec dbg n b w g x y G Hp He) as [[E' _]|(g2 & E' & G' & _)]; [congruence|].
    rewrite E in E'. injection E' as <-. exact G'.
  - cbn [play] in E. unfold assert_ in E. destruct (gm_passes g <? 2)%nat eqn:Ep; [|discriminate]. cbn [bind] in E. injection E as <-.
    apply Nat.ltb_lt in Ep. eapply ginv_same_board; try exact G; try reflexivity; cbn; [lia|discriminate].
  - cbn [play] in E. injection E as <-. eapply ginv_same_board; try exact G; try reflexivity; cbn.
    + apply (gi_passes _ _ _ _ G).
    + apply (gi_ko _ _ _ _ G).
  - eapply ginv_same_board; try exact G; try reflexivity; cbn; [lia|apply (gi_ko _ _ _ _ G)].
  - eapply ginv_same_board; try exact G; try reflexivity; cbn; [apply (gi_passes _ _ _ _ G)|apply (gi_ko _ _ _ _ G)].
  - eapply ginv_handicap; eassumption.
Qed.

Theorem breach_inv dbg n m g : breach dbg n m g -> wf n g /\ (length (chains g) <= m)%nat.
Proof.
  induction 1 as [g Hn E|m g p c g' _ [W L] Hp He E|m g k grp g' _ [W L] Hk E|b w g H|b w g x H Hx|b w g p x H Hp He E].
  - pose proof (new_le n g E). destruct (new_wf n ltac:(lia)) as (g' & E' & W & Hc & _).
    rewrite E in E'. injection E' as <-. split; [exact W|]. rewrite Hc. cbn. lia.
  - destruct (push_wf dbg n g p c W Hp He) as [[E' _]|(g2 & E' & W' & _ & L' & _)]; [congruence|].
    rewrite E in E'. injection E' as <-. split; [exact W'|]. lia.
  - apply live_lookup in Hk. destruct (remove_chain_spec dbg n g k grp W Hk) as (g2 & E' & W' & L' & _).
    rewrite E in E'. injection E' as <-. split; [exact W'|]. lia.
  - apply greach_inv in H. split; [apply (gi_wf _ _ _ _ H)|apply (gi_chains _ _ _ _ H)].
  - apply greach_inv in H. pose proof (gi_hist _ _ _ _ H) as F. pose proof (gi_histlen _ _ _ _ H) as F'.
    rewrite Forall_forall in F, F'. split; [apply F, Hx|apply F', Hx].
  - apply greach_inv in H. unfold play_for_verification in E.
    destruct (move_spec dbg n (gm_goban g) p (gm_turn g) (flag_contains (flag_illegal (gm_rule g)) SUICIDE) (gi_wf _ _ _ _ H) Hp He)
      as [[E1 _]|(g1 & dead & u & g' & rm & ko & E1 & E2 & W1 & W2 & _ & L & _)].
    + rewrite E1 in E. discriminate.
    + rewrite E1 in E. cbn [bind] in E. rewrite E2 in E. cbn [bind] in E. injection E as <-.
      split; [exact W2|]. pose proof (gi_chains _ _ _ _ H). lia.
Qed.

Lemma breach_wf dbg n m g : breach dbg n m g -> wf n g.
Proof. intros H. apply breach_inv in H. tauto. Qed.
