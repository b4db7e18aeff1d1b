(** Turns, passes, resignation, history. *)
From stdpp Require Import relations sorting.
From Verif Require Import MonadFacts Spec Ops BitsetFacts CoordFacts Struct Push Inv Remove Capture Bridge GameFacts RulesFacts KoFacts LegalFacts.
From Coq Require Import Lia.

Lemma run_app dbg g o1 o2 :
  run dbg g (o1 ++ o2) =
  let! '(g1, e1) := run dbg g o1 in let! '(g2, e2) := run dbg g1 o2 in Ok (g2, e1 ++ e2).
Proof.
  revert g. induction o1 as [|o o1 IH]; intros g; cbn [run app].
  - cbn [bind]. destruct (run dbg g o2) as [[g2 e2]| |]; reflexivity.
  - destruct (do_op dbg g o) as [[g1 e1]| |]; cbn [bind]; [|reflexivity..]. rewrite IH.
    destruct (run dbg g1 o1) as [[g2 e2]| |]; cbn [bind]; [|reflexivity..].
    destruct (run dbg g2 o2) as [[g3 e3]| |]; cbn [bind]; [|reflexivity..]. rewrite app_assoc. reflexivity.
Qed.

(** what a call does to the turn, the passes and the outcome *)
Inductive call : game -> list event -> game -> Prop :=
| c_stone g g' : gm_turn g' = opp (gm_turn g) -> gm_passes g' = 0%nat -> gm_outcome g' = gm_outcome g -> call g [EvStone] g'
| c_pass g g' : (gm_passes g < 2)%nat -> gm_turn g' = opp (gm_turn g) -> gm_passes g' = S (gm_passes g) -> gm_outcome g' = gm_outcome g -> call g [EvPass] g'
| c_resign g c g' : gm_turn g' = gm_turn g -> gm_passes g' = gm_passes g -> gm_outcome g' = Some (WinnerByResign c) -> call g [EvResign c] g'
| c_resume g g' : gm_turn g' = gm_turn g -> gm_passes g' = 0%nat -> gm_outcome g' = gm_outcome g -> call g [EvResume] g'
| c_none g g' : gm_turn g' = gm_turn g -> gm_passes g' = gm_passes g -> gm_outcome g' = gm_outcome g -> call g [] g'
| c_handicap g g' : gm_turn g' = White -> gm_passes g' = gm_passes g -> gm_outcome g' = gm_outcome g -> call g [] g'.

Lemma play_call dbg g m g' : play dbg g m = Ok g' -> call g [event_of m] g'.
Proof.
  destruct m as [|c|x y]; cbn [play event_of]; intros H.
  - unfold assert_ in H. destruct (gm_passes g <? 2)%nat eqn:E; [|discriminate]. cbn [bind] in H. injection H as <-.
    apply Nat.ltb_lt in E. apply c_pass; [exact E|reflexivity..].
  - injection H as <-. apply c_resign; reflexivity.
  - apply bind_ok in H as (h & _ & H). apply bind_ok in H as ([[gb dead] u] & _ & H).
    apply bind_ok in H as ([[gb' pr] ko] & _ & H). injection H as <-. apply c_stone; reflexivity.
Qed.

Lemma op_call dbg g o g' e : do_op dbg g o = Ok (g', e) ->
  call g e g' /\ (is_handicap o = false -> gm_turn g' = if existsb is_turn e then opp (gm_turn g) else gm_turn g).
Proof.
  assert (Hnh : forall m e g', call g [event_of m] g' -> e = [event_of m] ->
                gm_turn g' = if existsb is_turn e then opp (gm_turn g) else gm_turn g).
  { clear. intros m e g' H ->. inversion H; subst; cbn [existsb is_turn orb]; assumption. }
  destruct o as [m|m| |k|pts]; cbn [do_op is_handicap]; intros H.
  - apply bind_ok in H as (g1 & E & H). injection H as <- <-. apply play_call in E. split; [exact E|].
    intros _. eapply Hnh; [exact E|reflexivity].
  - apply bind_ok in H as ([g1 v] & E & H). apply try_play_inv in E as [(er & -> & ->)|(-> & _ & E)]; injection H as <- <-.
    + split; [apply c_none; reflexivity|reflexivity].
    + apply play_call in E. split; [exact E|]. intros _. eapply Hnh; [exact E|reflexivity].
  - injection H as <- <-. split; [apply c_resume; reflexivity|reflexivity].
  - injection H as <- <-. split; [apply c_none; reflexivity|reflexivity].
  - apply bind_ok in H as (g1 & E & H). injection H as <- <-. unfold put_handicap in E. apply bind_ok in E as (gb & _ & E). injection E as <-.
    split; [apply c_handicap; reflexivity|discriminate].
Qed.

(** C20 *)
Lemma turn_run dbg g ops g' tr : forallb (fun o => negb (is_handicap o)) ops = true -> run dbg g ops = Ok (g', tr) ->
  gm_turn g' = if Nat.even (turns tr) then gm_turn g else opp (gm_turn g).
Proof.
  revert g tr. induction ops as [|o ops IH]; intros g tr Hh H; cbn [run] in H.
  - injection H as <- <-. reflexivity.
  - cbn [forallb] in Hh. apply andb_true_iff in Hh as [H1 H2]. apply negb_true_iff in H1.
    apply bind_ok in H as ([g1 e1] & E1 & H). apply bind_ok in H as ([g2 e2] & E2 & H). injection H as <- <-.
    rewrite (IH g1 e2 H2 E2). apply op_call in E1 as [HC HT]. rewrite (HT H1). unfold turns. rewrite List.filter_app, app_length.
    inversion HC; subst; cbn [existsb is_turn orb List.filter length plus]; try reflexivity;
    rewrite Nat.even_succ, <- Nat.negb_even; destruct (Nat.even _); cbn [negb]; rewrite ?opp_invol; reflexivity.
Qed.

(** C21: number of passes at the end of the trace, resignations aside *)
Lemma leading_app a b : (forall e, e ∈ a -> e = EvPass \/ is_resign e = true) ->
  leading_passes (a ++ b) = (leading_passes a + leading_passes b)%nat.
Proof.
  induction a as [|e a IH]; intros H; [reflexivity|]. cbn [app leading_passes].
  assert (Ha : forall e, e ∈ a -> e = EvPass \/ is_resign e = true) by (intros x Hx; apply H; right; exact Hx).
  destruct (H e) as [->|He]; [left|rewrite IH by exact Ha; lia|].
  destruct e; try discriminate. apply IH, Ha.
Qed.

Lemma passes_run dbg g ops g' tr : run dbg g ops = Ok (g', tr) -> (gm_passes g <= 2)%nat ->
  (gm_passes g' <= 2)%nat /\
  gm_passes g' = (leading_passes (rev tr) +
    (if forallb (fun e => match e with EvPass => true | EvResign _ => true | _ => false end) tr then gm_passes g else 0))%nat.
Proof.
  revert g' tr. induction ops as [|o ops IH] using rev_ind; intros g' tr H Hp; [injection H as <- <-; cbn; lia|].
  rewrite run_app in H. apply bind_ok in H as ([g1 e1] & E1 & H). apply bind_ok in H as ([g2 e2] & E2 & H). injection H as <- <-.
  destruct (IH g1 e1 E1 Hp) as [IH1 IH2]. cbn [run] in E2. apply bind_ok in E2 as ([g3 e3] & E3 & E2). cbn [bind] in E2. injection E2 as <- <-.
  rewrite app_nil_r. apply op_call in E3 as [HC _]. rewrite rev_app_distr, forallb_app.
  inversion HC; subst; cbn [rev app leading_passes forallb andb]; rewrite ?andb_true_r, ?andb_false_r; try lia.
Qed.

Lemma passes_over dbg s r g ops g' tr : game_new s r = Ok g -> run dbg g ops = Ok (g', tr) ->
  existsb is_resign tr = false ->
  (is_over g' = true <-> exists t, tr = t ++ [EvPass; EvPass]).
Proof.
  intros Hn H Hr. unfold game_new in Hn. apply bind_ok in Hn as (gb & _ & Hn). injection Hn as <-.
  destruct (passes_run dbg _ ops g' tr H) as [H1 H2]; [cbn; lia|]. cbn [gm_passes] in H2.
  assert (Ho : gm_outcome g' = None).
  { revert H Hr. match goal with |- run dbg ?g _ = _ -> _ => set (g0 := g) end.
    assert (H0 : gm_outcome g0 = None) by reflexivity. clearbody g0. clear - H0. revert g0 tr H0.
    induction ops as [|o ops IH]; intros g0 tr H0 H Hr; cbn [run] in H; [injection H as <- <-; exact H0|].
    apply bind_ok in H as ([g1 e1] & E1 & H). apply bind_ok in H as ([g2 e2] & E2 & H). injection H as <- <-.
    rewrite existsb_app in Hr. apply orb_false_iff in Hr as [R1 R2]. apply (IH g1 e2); [|exact E2|exact R2].
    apply op_call in E1 as [HC _]. inversion HC; subst; try congruence. discriminate. }
  unfold is_over. rewrite Ho, Nat.leb_le.
  replace (if forallb _ tr then 0 else 0)%nat with 0%nat in H2 by (destruct (forallb _ tr); reflexivity). rewrite Nat.add_0_r in H2.
  split.
  - intros H3. assert (E : leading_passes (rev tr) = 2%nat) by lia.
    assert (HR : existsb is_resign (rev tr) = false).
    { apply existsb_false. intros x Hx. rewrite existsb_false in Hr. apply Hr. apply elem_of_list_In, in_rev, elem_of_list_In, Hx. }
    destruct (rev tr) as [|[] [|[] t]] eqn:Er; cbn in E; try discriminate.
    exists (rev t). rewrite <- (rev_involutive tr), Er. cbn. rewrite <- app_assoc. reflexivity.
  - intros (t & ->). rewrite rev_app_distr in H2. cbn in H2. lia.
Qed.

(** C23 *)
Lemma resign_final dbg g ops g' tr : run dbg g ops = Ok (g', tr) -> existsb is_resign tr = false -> gm_outcome g' = gm_outcome g.
Proof.
  revert g tr. induction ops as [|o ops IH]; intros g tr H Hr; cbn [run] in H; [injection H as <- <-; reflexivity|].
  apply bind_ok in H as ([g1 e1] & E1 & H). apply bind_ok in H as ([g2 e2] & E2 & H). injection H as <- <-.
  rewrite existsb_app in Hr. apply orb_false_iff in Hr as [R1 R2]. rewrite (IH g1 e2 E2 R2).
  apply op_call in E1 as [HC _]. inversion HC; subst; try congruence. discriminate.
Qed.

(** C50 *)
Lemma recorded_greach dbg n l g : recorded dbg n l g -> exists b w, greach dbg n b w g.
Proof.
  induction 1 as [s r g Hn Hs E|bl g Hn Hs Hm Nd Hon E|l g x y g' _ (b & w & IH) Hp He E|l g g' _ (b & w & IH) E
                 |l g c g' _ (b & w & IH) E|l g _ (b & w & IH)|l g k _ (b & w & IH)|l g pts g' _ (b & w & IH) Nd Hp E]; eexists _, _.
  - eapply gr_new; eassumption.
  - eapply gr_build; eassumption.
  - eapply gr_play; eassumption.
  - eapply gr_pass; eassumption.
  - eapply gr_resign; eassumption.
  - eapply gr_resume; eassumption.
  - eapply gr_komi; eassumption.
  - eapply gr_handicap; eassumption.
Qed.

Lemma sorted_snoc (l : list nat) x : StronglySorted lt l -> (forall y, y ∈ l -> (y < x)%nat) -> StronglySorted lt (l ++ [x]).
Proof.
  intros S H. induction S as [|a l S IH F]; [repeat constructor|]. cbn [app]. constructor.
  - apply IH. intros y Hy. apply H. right. exact Hy.
  - apply Forall_app. split; [exact F|]. apply Forall_singleton, H. left.
Qed.

Lemma first_snoc n l h x h' : Forall (wf n) h -> wf n x ->
  first_occurrences n l h -> (forall a, a ∈ l -> exists y, y ∈ h /\ same_pos n (pos_of a) (pos_of y)) ->
  history_insert h x = Ok h' ->
  first_occurrences n (l ++ [x]) h' /\ (forall a, a ∈ l ++ [x] -> exists y, y ∈ h' /\ same_pos n (pos_of a) (pos_of y)).
Proof.
  intros Wh Wx (is & Hs & Hm & Hi) Hc E.
  assert (Hh : forall b, b ∈ h -> exists i, i ∈ is /\ l !! i = Some b).
  { intros b Hbh. assert (H : Some b ∈ List.map (fun i => l !! i) is) by (rewrite Hm; apply elem_of_lmap; eauto).
    apply elem_of_lmap in H as (i & Hi' & Hin). eauto. }
  assert (Hlt : forall i, i ∈ is -> (i < length l)%nat).
  { intros i Hin. assert (H : l !! i ∈ List.map Some h) by (rewrite <- Hm; apply elem_of_lmap; eauto).
    apply elem_of_lmap in H as (b & Hb & Hbh). apply lookup_lt_Some in Hb. exact Hb. }
  assert (Hext : List.map (fun i => (l ++ [x]) !! i) is = List.map Some h).
  { rewrite <- Hm. apply List.map_ext_in. intros i Hin. apply lookup_app_l, Hlt, elem_of_list_In, Hin. }
  assert (Hold : forall i b, (l ++ [x]) !! i = Some b -> (i < length l)%nat ->
            (i ∈ is <-> forall j a, (j < i)%nat -> (l ++ [x]) !! j = Some a -> ~ same_pos n (pos_of a) (pos_of b))).
  { intros i b Eb Hl. rewrite lookup_app_l in Eb by exact Hl. rewrite (Hi i b Eb). split; intros H j a Hj Ea.
    - rewrite lookup_app_l in Ea by lia. exact (H j a Hj Ea).
    - apply (H j a Hj). rewrite lookup_app_l by lia. exact Ea. }
  destruct (history_insert_spec n h x Wh Wx) as (h2 & E2 & _ & Hh2). rewrite E in E2. injection E2 as <-.
  destruct Hh2 as [[(y & Hy & Hyx) ->]|[Hnew ->]]; split.
  - exists is. split; [exact Hs|]. split; [exact Hext|]. intros i b Eb.
    destruct (decide (i < length l)%nat) as [Hl|Hl]; [apply Hold; assumption|].
    assert (i = length l) as -> by (apply lookup_lt_Some in Eb; rewrite app_length in Eb; cbn in Eb; lia).
    rewrite lookup_app_r, Nat.sub_diag in Eb by lia. injection Eb as <-. split.
    + intros Hin. apply Hlt in Hin. lia.
    + intros H. exfalso. destruct (Hh y Hy) as (k & Hk & Ek). apply (H k y (Hlt k Hk)); [rewrite lookup_app_l by apply Hlt, Hk; exact Ek|].
      apply same_pos_sym, Hyx.
  - intros a Ha. apply elem_of_app in Ha as [Ha|Ha]; [apply Hc, Ha|]. apply elem_of_list_singleton in Ha as ->. eauto.
  - exists (is ++ [length l]). split; [apply sorted_snoc; [exact Hs|exact Hlt]|]. split.
    + rewrite !map_app, Hext. cbn [List.map]. rewrite lookup_app_r, Nat.sub_diag by lia. reflexivity.
    + intros i b Eb. rewrite elem_of_app, elem_of_list_singleton.
      destruct (decide (i < length l)%nat) as [Hl|Hl].
      * rewrite <- (Hold i b Eb Hl). split; [intros [H|H]; [exact H|lia]|tauto].
      * assert (i = length l) as -> by (apply lookup_lt_Some in Eb; rewrite app_length in Eb; cbn in Eb; lia).
        rewrite lookup_app_r, Nat.sub_diag in Eb by lia. injection Eb as <-. split; [|tauto].
        intros _ j a Hj Ea Hsm. rewrite lookup_app_l in Ea by exact Hj. apply Hnew.
        destruct (Hc a) as (y & Hy & Hay); [eapply elem_of_list_lookup_2, Ea|]. exists y. split; [exact Hy|].
        eapply same_pos_trans; [apply same_pos_sym, Hsm|exact Hay].
  - intros a Ha. apply elem_of_app in Ha as [Ha|Ha].
    + destruct (Hc a Ha) as (y & Hy & Hay). exists y. split; [apply elem_of_app; tauto|exact Hay].
    + apply elem_of_list_singleton in Ha as ->. exists x. split; [apply elem_of_app; right; left|apply same_pos_refl].
Qed.

Lemma first_nil n : first_occurrences n [] [].
Proof. exists []. split; [constructor|]. split; [reflexivity|]. intros i b H. rewrite lookup_nil in H. discriminate. Qed.

Theorem history_recorded dbg n l g : recorded dbg n l g ->
  first_occurrences n l (gm_history g) /\
  (forall a, a ∈ l -> exists y, y ∈ gm_history g /\ same_pos n (pos_of a) (pos_of y)).
Proof.
  induction 1 as [s r g Hn Hs E|bl g Hn Hs Hm Nd Hon E|l g x y g' H IH Hp He E|l g g' _ IH E
                 |l g c g' _ IH E|l g _ IH|l g k _ IH|l g pts g' _ IH Nd Hp E].
  - unfold game_new in E. apply bind_ok in E as (gb & _ & E). injection E as <-. split; [apply first_nil|]. intros a Ha. apply elem_of_nil in Ha as [].
  - assert (gm_history g = []) as ->.
    { unfold build_inner in E. rewrite Hm in E.
      repeat match goal with
      | H : bind _ _ = Ok _ |- _ => apply bind_ok in H as (? & ? & H)
      end. cbn [foldM] in *.
      repeat match goal with
      | H : Ok _ = Ok _ |- _ => injection H as <-
      | H : game_new _ _ = Ok _ |- _ => unfold game_new in H; apply bind_ok in H as (? & ? & H)
      | H : put_handicap _ _ _ = Ok _ |- _ => unfold put_handicap in H; apply bind_ok in H as (? & ? & H)
      end. reflexivity. }
    split; [apply first_nil|]. intros a Ha. apply elem_of_nil in Ha as [].
  - destruct IH as [IH1 IH2]. destruct (recorded_greach dbg n l g H) as (b & w & G). apply greach_inv in G.
    cbn [play] in E. apply bind_ok in E as (h & Eh & E). apply bind_ok in E as ([[gb dead] u] & _ & E).
    apply bind_ok in E as ([[gb' pr] ko] & _ & E). injection E as <-. cbn [gm_history].
    apply (first_snoc n l (gm_history g) (gm_goban g) h); [apply (gi_hist _ _ _ _ G)|apply (gi_wf _ _ _ _ G)|exact IH1|exact IH2|exact Eh].
  - cbn [play] in E. unfold assert_ in E. destruct (gm_passes g <? 2)%nat; [|discriminate]. cbn [bind] in E. injection E as <-. exact IH.
  - injection E as <-. exact IH.
  - exact IH.
  - exact IH.
  - unfold put_handicap in E. apply bind_ok in E as (gb & _ & E). injection E as <-. exact IH.
Qed.
