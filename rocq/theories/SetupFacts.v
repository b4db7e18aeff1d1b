(** The builder and handicap stones. *)
From Verif Require Import Spec Reach Observe Builder Struct Inv Bridge MonadFacts GameFacts RulesFacts BoardFacts.

Local Notation length := Datatypes.length.

Lemma len_small {A} (l : list A) : (N.of_nat (length l) <= 65535)%N -> len_as_u32 l = N.of_nat (length l).
Proof. intros H. unfold len_as_u32. apply N.mod_small. lia. Qed.

Lemma handicap_ok dbg n b w g pts : ginv n b w g -> NoDup pts ->
  (forall p, p ∈ pts -> on n p /\ pos_of (gm_goban g) p = None) ->
  (N.of_nat (b + w + length pts) <= 65535)%N ->
  exists g', put_handicap dbg g pts = Ok g' /\
    (forall p, on n p -> pos_of (gm_goban g') p = if decide (p ∈ pts) then Some Black else pos_of (gm_goban g) p) /\
    gm_turn g' = White /\ gm_handicap g' = N.of_nat (length pts) /\
    gm_rule g' = gm_rule g /\ gm_prisoners g' = gm_prisoners g /\ gm_passes g' = gm_passes g /\
    gm_outcome g' = gm_outcome g /\ gm_history g' = gm_history g /\ gm_ko_point g' = gm_ko_point g.
Proof.
  intros G Nd H L. pose proof (gi_wf _ _ _ _ G) as W.
  assert (E : exists g', put_handicap dbg g pts = Ok g').
  { unfold put_handicap. rewrite fold_handicap.
    destruct (push_list_wf dbg n (List.map (fun p => (p, Black)) pts) (gm_goban g) W) as [[_ F]|(g' & -> & _)].
    - replace ((List.map (fun p : coord => (p, Black)) pts).*1) with pts; [exact Nd|].
      clear. induction pts as [|p pts IH]; [reflexivity|]. cbn. rewrite <- IH. reflexivity.
    - intros s Hs. apply elem_of_list_In, List.in_map_iff in Hs as (p & <- & Hp). apply H, elem_of_list_In, Hp.
    - exfalso. rewrite map_length in F. pose proof (gi_chains _ _ _ _ G). lia.
    - cbn [bind]. eexists. reflexivity. }
  destruct E as [g' E]. exists g'. split; [exact E|].
  destruct (ginv_handicap dbg n b w g pts g' G Nd H E) as [_ Hp]. split; [exact Hp|].
  unfold put_handicap in E. destruct (foldM _ _ _) as [gb| |]; [|discriminate..]. cbn [bind] in E. injection E as <-.
  cbn [gm_goban gm_passes gm_prisoners gm_outcome gm_turn gm_rule gm_handicap gm_history gm_ko_point].
  rewrite len_small by lia. repeat split.
Qed.

Lemma build_ok dbg n bl : (1 <= n <= 19)%nat -> b_size bl = (n, n) ->
  NoDup (setup_stones bl).*1 -> (forall s, s ∈ setup_stones bl -> on n (fst s)) ->
  (N.of_nat (length (setup_stones bl)) <= 65535)%N ->
  exists g0,
    greach dbg n (of_color Black (setup_stones bl)) (of_color White (setup_stones bl)) g0 /\
    (forall p c, on n p -> pos_of (gm_goban g0) p = Some c <-> (p, c) ∈ setup_stones bl) /\
    gm_passes g0 = 0%nat /\ gm_prisoners g0 = (0%N, 0%N) /\ gm_history g0 = [] /\ gm_ko_point g0 = None /\
    gm_outcome g0 = b_outcome bl /\
    gm_handicap g0 = default (N.of_nat (length (b_handicap_points bl))) (b_handicap bl) /\
    gm_turn g0 = default (if decide (gm_handicap g0 = 0%N) then Black else White) (b_turn bl) /\
    komi g0 = default (r_komi (b_rule bl)) (b_komi bl) /\
    flag_illegal (gm_rule g0) = flag_illegal (b_rule bl) /\ flag_score (gm_rule g0) = flag_score (b_rule bl) /\
    build dbg bl = (builder_default, foldM (fun g m => play dbg g m) (b_moves bl) g0).
Proof.
  intros Hn Hs Nd Hon L. destruct (new_wf n Hn) as (gn & En & Wn & Cn & Zn).
  assert (Pn : forall p, on n p -> pos_of gn p = None) by (intros p Hp; apply (pos_new n gn p Wn Zn Hp)).
  destruct (push_list_wf dbg n (setup_stones bl) gn Wn Nd) as [[_ F]|(gb & Eg & Wg & Hp & _)].
  { intros s Hin. split; [apply Hon, Hin|apply Pn, Hon, Hin]. }
  { exfalso. rewrite Cn in F. cbn in F. lia. }
  exists (built bl gb).
  assert (Hu : len_as_u32 (b_handicap_points bl) = N.of_nat (length (b_handicap_points bl))).
  { apply len_small. unfold setup_stones in L. rewrite app_length, map_length in L. lia. }
  split.
  { change (setup_stones bl) with (setup_stones (set_moves bl [])).
    apply gr_build; [lia|exact Hs|reflexivity|exact Nd|exact Hon|].
    rewrite build_inner_eq. change (b_size (set_moves bl [])) with (b_size bl). rewrite Hs, En. cbn [bind].
    change (setup_stones (set_moves bl [])) with (setup_stones bl). rewrite Eg. reflexivity. }
  split.
  { intros p c On. cbn [gm_goban built]. rewrite (Hp p On), (Pn p On).
    match goal with |- context [List.find ?f0 _] => set (f := f0) end.
    destruct (List.find f (setup_stones bl)) as [[q d]|] eqn:Ef.
    - apply List.find_some in Ef as [Hi Hf]. unfold f in Hf. apply coord_eqb_eq in Hf. cbn in Hf. subst q. cbn [snd].
      apply elem_of_list_In in Hi. split; [intros E; injection E as ->; exact Hi|]. intros Hc. f_equal.
      apply elem_of_list_lookup in Hi as [i Hi]. apply elem_of_list_lookup in Hc as [j Hj].
      assert (i = j).
      { eapply (NoDup_lookup (setup_stones bl).*1 i j p); [exact Nd|rewrite list_lookup_fmap, Hi; reflexivity|rewrite list_lookup_fmap, Hj; reflexivity]. }
      subst j. congruence.
    - split; [discriminate|]. intros Hc. apply elem_of_list_In in Hc. pose proof (List.find_none _ _ Ef _ Hc) as Hf.
      unfold f in Hf. cbn in Hf. assert (coord_eqb p p = true) by (apply coord_eqb_eq; reflexivity). congruence. }
  do 4 (split; [reflexivity|]). split; [reflexivity|].
  split; [cbn [built gm_handicap]; rewrite Hu; destruct (b_handicap bl); reflexivity|].
  split.
  { cbn [built gm_handicap gm_turn]. destruct (b_turn bl); [reflexivity|]. cbn [default].
    destruct (N.eqb_spec (match b_handicap bl with Some h => h | None => len_as_u32 (b_handicap_points bl) end) 0) as [->|Hne].
    - rewrite decide_True by reflexivity. reflexivity.
    - rewrite decide_False by exact Hne. reflexivity. }
  split; [unfold komi; cbn [built gm_rule]; destruct (b_komi bl); reflexivity|].
  split; [cbn [built gm_rule]; destruct (b_komi bl); reflexivity|].
  split; [cbn [built gm_rule]; destruct (b_komi bl); reflexivity|].
  unfold build. rewrite build_inner_eq, Hs, En. cbn [bind]. rewrite Eg. reflexivity.
Qed.
