(** More statements of the property files, derived from the lemmas about the model. *)
From stdpp Require Import relations sorting.
From Verif Require Import Spec Observe Ops ScoreSpec SymSpec DeadStones BitsetFacts CoordFacts Struct Push Inv Bridge MonadFacts GameFacts RulesFacts KoFacts BoardFacts CheckFacts EyeFacts LegalFacts ApiFacts AgreeFacts LegalsFacts OpsFacts TerritoryFacts ScoreFacts ViewFacts BoundsFacts SetupFacts RefuteFacts Remove Capture ClaimFacts SymFacts LongFacts.
From Coq Require Import Lia.

Local Notation length := Datatypes.length.

Lemma claim_components dbg n m g p : breach dbg n m g -> on n p -> pos_of g p <> None ->
  (forall q, on n q -> group_no g p = group_no g q <-> connected n (pos_of g) p q) /\
  exists k c l, group_no g p = Some k /\ pos_of g p = Some c /\
    chain_stones dbg g k = Ok (List.map (fun q => (q, c)) l) /\ NoDup l /\
    forall q, q ∈ l <-> on n q /\ connected n (pos_of g) p q.
Proof.
  intros H Hp Hs. apply breach_wf in H as W. split; [intros q Hq; apply same_group; assumption|].
  destruct (proj1 (group_no_some n g p W Hp) Hs) as [k Ek]. destruct (chain_stones_api dbg n g p k W Hp Ek) as (c & l & E1 & E2 & E3 & E4).
  exists k, c, l. auto.
Qed.

Lemma claim_liberties dbg n m g p : breach dbg n m g -> on n p -> pos_of g p <> None ->
  exists grp l, group_of g p = Some grp /\ group_liberties grp = Ok l /\ StronglySorted lt l /\
    (forall i, i ∈ l <-> exists q, i = index n q /\ liberty n (pos_of g) p q) /\
    number_of_liberties grp = length l /\
    (is_dead grp = true <-> ~ breathes n (pos_of g) p) /\
    (is_atari grp = true <-> card (liberty n (pos_of g) p) 1) /\
    (forall q, on n q -> exists v, contains_liberty grp (index n q) = Ok v /\ (v = true <-> liberty n (pos_of g) p q)).
Proof.
  intros H Hp Hs. apply breach_wf in H as W. destruct (stone_group n g p W Hp Hs) as (k & grp & Hc & Hl & _).
  assert (Hg' : group_of g p = Some grp) by (apply (group_of_at n g p grp W); exists k; auto). destruct (liberties_api n g p grp W Hp Hg') as (l & E1 & E2 & E3 & E4 & E5 & E6 & E7).
  exists grp, l. do 5 (split; [assumption|]). split; [|split; [|assumption]].
  - rewrite E5. split.
    + intros -> [q Hq]. assert (index n q ∈ []) by (apply E3; eauto). inversion H0.
    + intros Hb. destruct l as [|i l]; [reflexivity|]. exfalso. destruct (proj1 (E3 i) ltac:(left)) as (q & _ & Hq). apply Hb. exists q. exact Hq.
  - rewrite E6. split.
    + destruct l as [|i [|]]; try discriminate. intros _. destruct (proj1 (E3 i) ltac:(left)) as (q & -> & Hq). exists [q].
      split; [apply NoDup_singleton|]. split; [|reflexivity]. intros p'. rewrite elem_of_list_singleton. split; [intros ->; exact Hq|].
      intros Hlb. assert (K : index n p' ∈ [index n q]) by (apply E3; eauto). apply elem_of_list_singleton in K.
      apply (ViewFacts.index_inj n); [apply Hlb|apply Hq|exact K].
    + intros (ql & Nd & Hql & Hlen). destruct ql as [|q [|]]; try discriminate.
      assert (K : forall i, i ∈ l <-> i = index n q).
      { intros i. rewrite E3. split.
        - intros (q' & -> & Hq'). apply Hql in Hq'. apply elem_of_list_singleton in Hq' as ->. reflexivity.
        - intros ->. exists q. split; [reflexivity|]. apply Hql. left. }
      destruct l as [|i [|j l]]; [exfalso|reflexivity|exfalso].
      * assert (index n q ∈ []) by (apply K; reflexivity). inversion H0.
      * pose proof (proj1 (K i) ltac:(left)). pose proof (proj1 (K j) ltac:(right; left)). subst.
        inversion E2 as [|? ? _ F]. rewrite Forall_forall in F. specialize (F (index n q) ltac:(left)). lia.
Qed.

Lemma claim_counts dbg n m g : breach dbg n m g ->
  number_of_stones g = (count n (pos_of g) Black, count n (pos_of g) White) /\
  forall p grp, on n p -> group_of g p = Some grp -> card (fun q => on n q /\ connected n (pos_of g) p q) (g_num_stones grp).
Proof.
  intros H. split; [exact (claim_count dbg n m g H)|]. apply breach_wf in H. intros p grp. apply group_size_api. exact H.
Qed.

Lemma claim_equality d1 d2 n m1 m2 a b : breach d1 n m1 a -> breach d2 n m2 b ->
  exists v, goban_eq a b = Ok v /\ (v = true <-> same_pos n (pos_of a) (pos_of b)) /\
            (v = true -> goban_hash a = goban_hash b).
Proof. intros A B. apply eq_api; eapply breach_wf; eassumption. Qed.

Lemma claim_breathe dbg n g : lreach dbg n g -> all_breathe n (position g).
Proof. intros H. apply (lreach_inv dbg n g H). Qed.

Lemma claim_legals dbg n b w g : greach dbg n b w g -> ~ no_slot_left g -> gm_passes g <> 2%nat ->
  exists l, legals dbg g = Ok l /\ NoDup l /\
    (forall x y, (x, y) ∈ l <-> on n (x, y) /\ exists g', try_play dbg g (MPlay x y) = Ok (g', Accepted)) /\
    (forall p, p ∈ l -> position g p = None).
Proof.
  intros H L P. destruct (legals_exact dbg n b w g (greach_inv _ _ _ _ _ H) (slot_left _ _ _ _ (greach_inv _ _ _ _ _ H) L) P) as (l & E & S & H1 & H2).
  exists l. split; [exact E|]. split; [|auto]. clear -S. induction S as [|x l S IH F]; constructor; [|exact IH].
  intros Hx. rewrite Forall_forall in F. specialize (F x Hx). unfold row_major in F. lia.
Qed.

Lemma claim_mono dbg n b w g f f' : greach dbg n b w g -> ~ no_slot_left g -> N.land f f' = f' ->
  exists l l', legals_by dbg g f = Ok l /\ legals_by dbg g f' = Ok l' /\ l `sublist_of` l' /\ forall p, p ∈ l -> p ∈ l'.
Proof. intros H L. pose proof (greach_inv _ _ _ _ _ H) as G. exact (legals_mono dbg n b w g f f' G (slot_left _ _ _ _ G L)). Qed.

(** C24: resignation does not influence which moves are accepted *)
Lemma check_outcome dbg g o p f : check_point_by dbg (with_outcome g o) p f = check_point_by dbg g p f.
Proof.
  assert (C : forall c l, check_eye_corners dbg (with_outcome g o) c l = check_eye_corners dbg g c l).
  { intros c l. induction l as [|q l IH]; [reflexivity|]. cbn [check_eye_corners]. rewrite IH. reflexivity. }
  assert (E : forall s, check_eye dbg (with_outcome g o) s = check_eye dbg g s).
  { intros [q c]. unfold check_eye.
    change (gm_goban (with_outcome g o)) with (gm_goban g). change (helper_check_eye dbg (with_outcome g o)) with (helper_check_eye dbg g).
    destruct (get_color _ _) as [[?|]| |]; [reflexivity| |reflexivity..]. cbn [bind].
    destruct (neighbors_coords _ _ _); [|reflexivity..]. cbn [bind]. destruct (anyM _ _) as [[]| |]; [reflexivity| |reflexivity..]. cbn [bind].
    destruct (helper_check_eye _ _ _ _) as [[[? ?] ?]| |]; [|reflexivity..]. cbn [bind]. rewrite C. reflexivity. }
  unfold check_point_by. change (gm_turn (with_outcome g o)) with (gm_turn g). rewrite E. reflexivity.
Qed.

Lemma play_outcome dbg g o x y :
  play dbg (with_outcome g o) (MPlay x y) = let! g' := play dbg g (MPlay x y) in Ok (with_outcome g' o).
Proof.
  destruct g as [gb ps pr oc t r h hi k]. unfold with_outcome, play. cbn [gm_goban gm_passes gm_prisoners gm_outcome gm_turn gm_rule gm_handicap gm_history gm_ko_point].
  destruct (history_insert hi gb) as [hi'| |]; [|reflexivity..]. cbn [bind].
  destruct (push_wth_feedback dbg gb (x, y) t) as [[[gb' d] a]| |]; [|reflexivity..]. cbn [bind].
  destruct (game_remove_captured_stones _ _ _ _ _ _) as [[[? ?] ?]| |]; reflexivity.
Qed.

(** the same verdict with and without a recorded outcome, and the same game but
    for the outcome *)
Lemma claim_outcome_ignored dbg g o x y :
  try_play dbg (with_outcome g o) (MPlay x y)
  = let! '(g', v) := try_play dbg g (MPlay x y) in Ok (with_outcome g' o, v).
Proof.
  unfold try_play. change (gm_passes (with_outcome g o)) with (gm_passes g). change (gm_goban (with_outcome g o)) with (gm_goban g).
  destruct (_ =? _)%nat; [reflexivity|]. destruct (get_color _ _) as [c| |]; [|reflexivity..]. cbn [bind].
  destruct (negb _); [reflexivity|]. unfold check_point. change (gm_rule (with_outcome g o)) with (gm_rule g). rewrite check_outcome.
  destruct (check_point_by _ _ _ _) as [[e|]| |]; [reflexivity| |reflexivity..]. cbn [bind]. rewrite play_outcome.
  destruct (play dbg g (MPlay x y)); reflexivity.
Qed.

Lemma resign_is dbg g c : play dbg g (MResign c) = Ok (with_outcome g (Some (WinnerByResign c))).
Proof. reflexivity. Qed.

(** C36, C37: sizes *)
Lemma claim_from dbg n v : (1 <= n <= 19)%nat -> length v = (n * n)%nat ->
  exists g, goban_from dbg v = Ok g /\ gsize g = (n, n) /\ forall p, on n p -> pos_of g p = mjoin (v !! index n p).
Proof.
  intros Hn Hv. destruct (goban_from_ok dbg n v Hn Hv) as (g & E & W & Hp). exists g. split; [exact E|]. split; [apply (wf_size _ _ W)|exact Hp].
Qed.

Lemma claim_matrix dbg n m0 g : breach dbg n m0 g ->
  exists m, matrix g = Ok m /\ length m = (361 / n)%nat /\ (length m = n <-> n = 19%nat) /\
    (forall row, row ∈ m -> length row = n) /\
    (forall i j, on n (i, j) -> exists row, m !! i = Some row /\ row !! j = Some (pos_of g (i, j))) /\
    (forall i row x, (n <= i)%nat -> m !! i = Some row -> x ∈ row -> x = None).
Proof.
  intros H. apply breach_wf in H as W. pose proof (wf_n _ _ W) as Hn. destruct (matrix_api n g W) as (m & E & L & Le & H1 & H2 & H3).
  exists m. split; [exact E|]. split; [exact L|]. split; [|split; [exact H1|split; [|exact H3]]].
  - rewrite L. pose proof (Nat.div_mod 361 n ltac:(lia)) as D. pose proof (Nat.mod_upper_bound 361 n ltac:(lia)). split; intros E'; [|subst n; reflexivity].
    rewrite E' in D. nia.
  - intros i j Hij. pose proof Hij as [Hi Hj]. cbn in Hi, Hj. destruct (m !! i) as [row|] eqn:Er; [|apply lookup_ge_None in Er; lia].
    exists row. split; [reflexivity|]. exact (H2 i j row Hij Er).
Qed.
