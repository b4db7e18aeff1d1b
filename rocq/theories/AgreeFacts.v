(** Debug and release builds agree on square boards (C09). *)
From stdpp Require Import relations.
From Verif Require Import MonadFacts Spec Reach Ops BitsetFacts CoordFacts Struct Push Inv Remove Capture Bridge GameFacts RulesFacts KoFacts BoardFacts CheckFacts EyeFacts LegalFacts TerritoryFacts Agree DeadStones.
From Coq Require Import Lia.

Lemma le_ok {A} (a b : res A) x : rle a b -> a = Ok x -> a = b.
Proof. intros H E. rewrite E. symmetry. apply H, E. Qed.

Lemma pwf_agree n g p c : wf n g -> on n p -> pos_of g p = None ->
  push_wth_feedback true g p c = push_wth_feedback false g p c.
Proof.
  intros W Hp He. destruct (move_spec true n g p c false W Hp He) as [(E & F & Hf)|(g1 & d & u & _ & _ & _ & E & _)].
  - rewrite E. destruct (move_spec false n g p c false W Hp He) as [(E' & _)|(g1 & d & u & g' & rm & ko & E' & _ & _ & W' & _ & [[H _]|[_ L]] & _)].
    + symmetry. exact E'.
    + contradiction.
    + pose proof (wf0_len _ (wf_0 _ _ W')). lia.
  - eapply le_ok; [apply le_pwf|exact E].
Qed.

Lemma captured_agree n g p c s g1 d u : wf n g -> on n p -> pos_of g p = None ->
  push_wth_feedback false g p c = Ok (g1, d, u) ->
  remove_captured_stones_aux true g1 s d u = remove_captured_stones_aux false g1 s d u.
Proof.
  intros W Hp He E. rewrite <- (pwf_agree n g p c W Hp He) in E.
  destruct (move_spec true n g p c s W Hp He) as [(E' & _)|(g1' & d' & u' & g' & rm & ko & E' & E2 & _)]; [congruence|].
  rewrite E in E'. injection E' as <- <- <-. eapply le_ok; [apply le_captured|exact E2].
Qed.

Lemma push_agree n g p c : wf n g -> on n p -> pos_of g p = None -> push true g p c = push false g p c.
Proof.
  intros W Hp He. unfold push. destruct Hp as [H1 H2]. rewrite (wf_size n g W). cbn [fst snd debug_assert].
  rewrite (proj2 (Nat.ltb_lt _ _) H1), (proj2 (Nat.ltb_lt _ _) H2). cbn [bind assert_].
  rewrite (pwf_agree n g p c W (conj H1 H2) He). reflexivity.
Qed.

Lemma play_agree n b w g x y : ginv n b w g -> on n (x, y) -> pos_of (gm_goban g) (x, y) = None ->
  play true g (MPlay x y) = play false g (MPlay x y).
Proof.
  intros G Hp He. destruct (play_spec true n b w g x y G Hp He) as [(E & F & Hf)|(g' & E & _)].
  - rewrite E. destruct (play_spec false n b w g x y G Hp He) as [(E' & _)|(g' & _ & G' & _ & [[H _]|[_ L]] & _)].
    + symmetry. exact E'.
    + contradiction.
    + pose proof (wf0_len _ (wf_0 _ _ (gi_wf _ _ _ _ G'))). lia.
  - eapply le_ok; [apply le_play|exact E].
Qed.

Lemma verification_agree n g p : wf n (gm_goban g) -> on n p -> pos_of (gm_goban g) p = None ->
  play_for_verification true g p = play_for_verification false g p.
Proof.
  intros W Hp He. unfold play_for_verification. rewrite (pwf_agree n _ _ _ W Hp He).
  destruct (push_wth_feedback false (gm_goban g) p (gm_turn g)) as [[[g1 d] u]| |] eqn:E; cbn [bind]; [|reflexivity..].
  rewrite (captured_agree n _ _ _ _ g1 d u W Hp He E). reflexivity.
Qed.

Lemma super_ko_agree n g p : wf n (gm_goban g) -> on n p -> pos_of (gm_goban g) p = None ->
  check_super_ko true g (p, gm_turn g) = check_super_ko false g (p, gm_turn g).
Proof.
  intros W Hp He. unfold check_super_ko. cbn [fst]. destruct (_ <=? _)%nat; [reflexivity|].
  destruct (will_capture_ok true n g p W Hp He) as (v & Ev & _). rewrite (le_will_capture g p v Ev), Ev. cbn [bind].
  destruct (negb v); [reflexivity|]. rewrite (verification_agree n g p W Hp He).
  destruct (play_for_verification false g p); cbn [bind]; [|reflexivity..].
  destruct (check_ko_ok true n g p (gm_turn g) W Hp He) as (k & Ek & _). rewrite (le_check_ko _ _ k Ek), Ek. reflexivity.
Qed.

Lemma check_point_by_agree n g p flags : wf n (gm_goban g) -> on n p ->
  check_point_by true g p flags = check_point_by false g p flags.
Proof.
  intros W Hp. unfold check_point_by. rewrite (get_color_pos n _ _ W Hp). cbn [bind].
  destruct (pos_of (gm_goban g) p) eqn:He; [reflexivity|].
  destruct (check_suicide_ok true n g p (gm_turn g) W Hp He) as (v & Ev & _). rewrite (le_check_suicide _ _ v Ev), Ev.
  destruct (check_ko_ok true n g p (gm_turn g) W Hp He) as (k & Ek & _). rewrite (le_check_ko _ _ k Ek), Ek.
  rewrite !(check_eye_ok _ n g p (gm_turn g) W Hp), (super_ko_agree n g p W Hp He). reflexivity.
Qed.

Lemma try_play_agree n b w g m : ginv n b w g -> (forall x y, m = MPlay x y -> on n (x, y)) ->
  try_play true g m = try_play false g m.
Proof.
  intros G Hm. unfold try_play. destruct (_ =? _)%nat; [reflexivity|]. destruct m as [|c|x y]; [reflexivity..|].
  assert (Hp : on n (x, y)) by (apply Hm; reflexivity). pose proof (gi_wf _ _ _ _ G) as W.
  rewrite (get_color_pos n _ _ W Hp). cbn [bind]. destruct (pos_of (gm_goban g) (x, y)) eqn:He; [reflexivity|]. cbn [mcolor_eqb negb].
  unfold check_point. rewrite (check_point_by_agree n g (x, y) _ W Hp).
  destruct (check_point_by false g (x, y) _) as [[e|]| |]; cbn [bind]; [reflexivity| |reflexivity..].
  rewrite (play_agree n b w g x y G Hp He). reflexivity.
Qed.

Lemma legals_by_agree n g flags : wf n (gm_goban g) -> legals_by true g flags = legals_by false g flags.
Proof.
  intros W. unfold legals_by, pseudo_legals. rewrite (get_empty_coords_ok n _ W). cbn [bind].
  assert (H : forall l, (forall p, p ∈ l -> on n p) ->
    filterM (fun p => let! e := check_point_by true g p flags in Ok (match e with None => true | Some _ => false end)) l =
    filterM (fun p => let! e := check_point_by false g p flags in Ok (match e with None => true | Some _ => false end)) l).
  { induction l as [|p l IH]; intros Hl; [reflexivity|]. cbn [filterM].
    rewrite (check_point_by_agree n g p flags W) by (apply Hl; left). rewrite IH by (intros q Hq; apply Hl; right; exact Hq). reflexivity. }
  apply H. intros p Hp. apply elem_of_lfilter in Hp as [Hp _]. apply elem_of_points, Hp.
Qed.

Lemma push_list_agree n (l : list stone) : forall g, wf n g -> NoDup l.*1 ->
  (forall s, s ∈ l -> on n (fst s) /\ pos_of g (fst s) = None) ->
  foldM (fun g s => push true g (fst s) (snd s)) l g = foldM (fun g s => push false g (fst s) (snd s)) l g.
Proof.
  induction l as [|s l IH]; intros g W Nd Hl; [reflexivity|]. cbn [foldM].
  destruct (Hl s) as [Hp He]; [left|]. rewrite (push_agree n g _ _ W Hp He).
  destruct (push_wf false n g (fst s) (snd s) W Hp He) as [(-> & _)|(g' & -> & W' & HP & _)]; [reflexivity|]. cbn [bind].
  rewrite fmap_cons in Nd. apply NoDup_cons in Nd as [Hs Nd]. apply IH; [exact W'|exact Nd|].
  intros s' Hs'. destruct (Hl s') as [Hp' He']; [right; exact Hs'|]. split; [exact Hp'|].
  rewrite (HP _ Hp'). unfold put. rewrite decide_False; [exact He'|]. intros E. apply Hs. rewrite <- E. apply elem_of_list_fmap. eauto.
Qed.

Lemma handicap_agree n b w g pts : ginv n b w g -> NoDup pts -> (forall p, p ∈ pts -> on n p /\ pos_of (gm_goban g) p = None) ->
  put_handicap true g pts = put_handicap false g pts.
Proof.
  intros G Nd Hp. unfold put_handicap. rewrite !fold_handicap. rewrite (push_list_agree n); [reflexivity|apply (gi_wf _ _ _ _ G)| |].
  - replace (List.map (fun p => (p, Black)) pts).*1 with pts; [exact Nd|]. clear. induction pts as [|p l IH]; [reflexivity|]. cbn. f_equal. exact IH.
  - intros s Hs. apply elem_of_lmap in Hs as (p & -> & Hin). apply Hp, Hin.
Qed.

Lemma build_agree n bl : (1 <= n)%nat -> b_size bl = (n, n) -> b_moves bl = [] -> NoDup (setup_stones bl).*1 ->
  (forall s, s ∈ setup_stones bl -> on n (fst s)) -> build_inner true bl = build_inner false bl.
Proof.
  intros Hn Hs Hm Nd Hon. rewrite !build_inner_eq, Hs, Hm. destruct (goban_new (n, n)) as [gb| |] eqn:E; [|reflexivity..]. cbn [bind].
  pose proof (new_le n gb E) as Hle. destruct (new_wf n) as (gb' & E' & W & _ & Hc); [lia|]. rewrite E in E'. injection E' as <-.
  rewrite (push_list_agree n _ gb W Nd); [reflexivity|]. intros s Hin. split; [apply Hon, Hin|]. apply (pos_new n gb _ W Hc), Hon, Hin.
Qed.

Theorem greach_agree dbg dbg' n b w g : greach dbg n b w g -> greach dbg' n b w g.
Proof.
  destruct (decide (dbg = dbg')) as [->|Hd]; [exact id|].
  assert (Heq : forall A (f : bool -> res A), f true = f false -> f dbg = f dbg') by (intros A f H; destruct dbg, dbg'; congruence).
  induction 1 as [s r g Hn Hs E|bl g Hn Hs Hm Nd Hon E|b w g x y g' H IH Hp He E|b w g g' _ IH E|b w g c g' _ IH E|b w g _ IH|b w g k _ IH
                 |b w g pts g' H IH Nd Hp E].
  - eapply gr_new; eassumption.
  - eapply gr_build; try eassumption. rewrite (Heq _ (fun d => build_inner d bl)) in E; [exact E|]. apply (build_agree n); assumption.
  - eapply gr_play; try eassumption. rewrite (Heq _ (fun d => play d g (MPlay x y))) in E; [exact E|].
    apply (play_agree n b w); [eapply greach_inv, H|assumption..].
  - eapply gr_pass; [exact IH|exact E].
  - eapply gr_resign; [exact IH|exact E].
  - apply gr_resume, IH.
  - apply gr_komi, IH.
  - eapply gr_handicap; try eassumption. rewrite (Heq _ (fun d => put_handicap d g pts)) in E; [exact E|].
    apply (handicap_agree n b w); [eapply greach_inv, H|assumption..].
Qed.
