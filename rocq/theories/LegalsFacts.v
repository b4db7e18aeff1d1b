(** Lists of legal moves, refusals, pauses (C10, C11, C22, C41, C44, C55). *)
From stdpp Require Import relations sorting.
From Verif Require Import MonadFacts Spec Observe Ops BitsetFacts CoordFacts Struct Push Inv Remove Capture Bridge GameFacts RulesFacts KoFacts BoardFacts CheckFacts EyeFacts LegalFacts DeadStones.
From Coq Require Import Lia.

(** C10 *)
Lemma refused_unchanged dbg g m g' e : try_play dbg g m = Ok (g', Refused e) -> g' = g.
Proof. intros H. apply try_play_inv in H as [(e' & _ & H)|(H & _)]; [exact H|discriminate]. Qed.

(** C22 *)
Lemma paused_refuses dbg g m : gm_passes g = 2%nat -> try_play dbg g m = Ok (g, Refused EGamePaused).
Proof. intros H. unfold try_play. rewrite H. reflexivity. Qed.

Lemma check_point_by_not_paused dbg g p f : check_point_by dbg g p f <> Ok (Some EGamePaused).
Proof.
  unfold check_point_by. intros H. apply bind_ok in H as ([c|] & _ & H); [discriminate|].
  apply bind_ok in H as ([] & _ & H); [discriminate|]. apply bind_ok in H as ([] & _ & H); [discriminate|].
  apply bind_ok in H as ([] & _ & H); [discriminate|]. apply bind_ok in H as ([] & _ & H); discriminate.
Qed.

Lemma paused_only dbg g m g' : try_play dbg g m = Ok (g', Refused EGamePaused) -> gm_passes g = 2%nat.
Proof.
  unfold try_play. destruct (gm_passes g =? 2)%nat eqn:E; [intros _; apply Nat.eqb_eq, E|].
  destruct m as [|c|x y]; intros H.
  - apply bind_ok in H as (x & _ & H). discriminate.
  - apply bind_ok in H as (x & _ & H). discriminate.
  - apply bind_ok in H as (c & _ & H). destruct (negb _); [discriminate|].
    apply bind_ok in H as ([e|] & E2 & H).
    + injection H as _ ->. destruct (check_point_by_not_paused _ _ _ _ E2).
    + apply bind_ok in H as (? & _ & H). discriminate.
Qed.

Lemma pass_panics dbg g : play dbg g MPass = Panic <-> (2 <= gm_passes g)%nat.
Proof.
  cbn [play]. unfold assert_. destruct (gm_passes g <? 2)%nat eqn:E; cbn [bind].
  - apply Nat.ltb_lt in E. split; [discriminate|lia].
  - apply Nat.ltb_ge in E. split; [intros _; exact E|reflexivity].
Qed.

(** C41 *)
Lemma occupied_refused dbg n g x y : wf n (gm_goban g) -> on n (x, y) -> pos_of (gm_goban g) (x, y) <> None ->
  try_play dbg g (MPlay x y) = Ok (g, Refused (if (gm_passes g =? 2)%nat then EGamePaused else EPointNotEmpty)).
Proof.
  intros W Hp Hs. unfold try_play. destruct (gm_passes g =? 2)%nat; [reflexivity|].
  rewrite (get_color_pos n _ _ W Hp). cbn [bind]. destruct (pos_of (gm_goban g) (x, y)); [reflexivity|]. congruence.
Qed.

(** totality of the checks below the limit *)
Lemma check_point_by_total dbg n g p flags : wf n (gm_goban g) -> Forall (wf n) (gm_history g) -> on n p ->
  (N.of_nat (length (chains (gm_goban g))) < 65535)%N -> exists e, check_point_by dbg g p flags = Ok e.
Proof.
  intros W Wh Hp Hc. destruct (check_point_by_ok dbg n g p flags W Wh Hp) as [(_ & F & _)|(e & E & _)]; [lia|eauto].
Qed.

Definition allowed (dbg : bool) (g : game) (flags : N) (p : coord) : bool :=
  match check_point_by dbg g p flags with Ok None => true | _ => false end.

Lemma legals_by_ok dbg n g flags : wf n (gm_goban g) -> Forall (wf n) (gm_history g) ->
  (N.of_nat (length (chains (gm_goban g))) < 65535)%N ->
  legals_by dbg g flags = Ok (List.filter (allowed dbg g flags) (List.filter (fun p => is_none (pos_of (gm_goban g) p)) (points n))).
Proof.
  intros W Wh Hc. unfold legals_by, pseudo_legals. rewrite (get_empty_coords_ok n _ W). cbn [bind].
  apply filterM_ok. intros p Hp. apply elem_of_lfilter in Hp as [Hp _]. apply elem_of_points in Hp. unfold allowed.
  destruct (check_point_by_total dbg n g p flags W Wh Hp Hc) as (e & ->). cbn [bind]. destruct e; reflexivity.
Qed.

Lemma allowed_empty dbg n g flags p : wf n (gm_goban g) -> on n p -> allowed dbg g flags p = true -> pos_of (gm_goban g) p = None.
Proof.
  intros W Hp H. unfold allowed, check_point_by in H. rewrite (get_color_pos n _ _ W Hp) in H. cbn [bind] in H.
  destruct (pos_of (gm_goban g) p); [discriminate|reflexivity].
Qed.

Lemma elem_of_legals dbg n g flags l : wf n (gm_goban g) -> Forall (wf n) (gm_history g) ->
  (N.of_nat (length (chains (gm_goban g))) < 65535)%N -> legals_by dbg g flags = Ok l ->
  forall p, p ∈ l <-> on n p /\ check_point_by dbg g p flags = Ok None.
Proof.
  intros W Wh Hc E p. rewrite (legals_by_ok dbg n g flags W Wh Hc) in E. injection E as <-.
  rewrite !elem_of_lfilter, elem_of_points. split.
  - intros [[Hp _] Ha]. split; [exact Hp|]. unfold allowed in Ha. destruct (check_point_by dbg g p flags) as [[]| |]; try discriminate. reflexivity.
  - intros [Hp E]. assert (Ha : allowed dbg g flags p = true) by (unfold allowed; rewrite E; reflexivity).
    split; [|exact Ha]. split; [exact Hp|]. rewrite (allowed_empty dbg n g flags p W Hp Ha). reflexivity.
Qed.

Lemma accepted_iff dbg n b w g x y : ginv n b w g -> (N.of_nat (length (chains (gm_goban g))) < 65535)%N -> gm_passes g <> 2%nat -> on n (x, y) ->
  (exists g', try_play dbg g (MPlay x y) = Ok (g', Accepted)) <-> check_point_by dbg g (x, y) (flag_illegal (gm_rule g)) = Ok None.
Proof.
  intros G Hb Hps Hp. pose proof (gi_wf _ _ _ _ G) as W.
  rewrite (try_play_point dbg n g x y W Hp Hps). unfold check_point. split.
  - intros (g' & H). apply bind_ok in H as ([e|] & E & H); [discriminate|]. exact E.
  - intros E. rewrite E. cbn [bind].
    assert (He : pos_of (gm_goban g) (x, y) = None).
    { apply (allowed_empty dbg n g (flag_illegal (gm_rule g)) (x, y) W Hp). unfold allowed. rewrite E. reflexivity. }
    destruct (play_spec dbg n b w g x y G Hp He) as [(_ & F & _)|(g' & E' & _)]; [lia|]. rewrite E'. cbn [bind]. eauto.
Qed.

(** a game with a free group number *)
Lemma slot_left n b w g : ginv n b w g -> ~ no_slot_left g -> (N.of_nat (length (chains (gm_goban g))) < 65535)%N.
Proof. intros G H. pose proof (wf0_len _ (wf_0 n _ (gi_wf _ _ _ _ G))). unfold no_slot_left in H. lia. Qed.

(** C11 *)
Lemma legals_exact dbg n b w g : ginv n b w g -> (N.of_nat (length (chains (gm_goban g))) < 65535)%N -> gm_passes g <> 2%nat ->
  exists l, legals dbg g = Ok l /\ StronglySorted row_major l /\
    (forall x y, (x, y) ∈ l <-> on n (x, y) /\ exists g', try_play dbg g (MPlay x y) = Ok (g', Accepted)) /\
    (forall p, p ∈ l -> pos_of (gm_goban g) p = None).
Proof.
  intros G Hc Hps. pose proof (gi_wf _ _ _ _ G) as W. pose proof (gi_hist _ _ _ _ G) as Wh.
  pose proof (legals_by_ok dbg n g (flag_illegal (gm_rule g)) W Wh Hc) as E. eexists. split; [exact E|]. split; [|split].
  - apply sorted_lfilter, sorted_lfilter, points_sorted.
  - intros x y. rewrite (elem_of_legals dbg n g _ _ W Wh Hc E (x, y)). split; intros [Hp H]; (split; [exact Hp|]).
    + apply (accepted_iff dbg n b w g x y G Hc Hps Hp). exact H.
    + apply (accepted_iff dbg n b w g x y G Hc Hps Hp). exact H.
  - intros p Hp. apply (elem_of_legals dbg n g _ _ W Wh Hc E p) in Hp as [Hp H].
    apply (allowed_empty dbg n g (flag_illegal (gm_rule g)) p W Hp). unfold allowed. rewrite H. reflexivity.
Qed.

(** C44 *)
Lemma flag_sub f f' x : N.land f f' = f' -> flag_contains f' x = true -> flag_contains f x = true.
Proof.
  unfold flag_contains. rewrite !N.eqb_eq. intros H1 H2. rewrite <- H2, N.land_assoc, H1. reflexivity.
Qed.

Lemma check_point_by_mono dbg g p f f' : N.land f f' = f' -> check_point_by dbg g p f = Ok None -> check_point_by dbg g p f' = Ok None.
Proof.
  intros Hs H. unfold check_point_by in *. apply bind_ok in H as ([c|] & Ec & H); [discriminate|]. rewrite Ec. cbn [bind].
  assert (Hstep : forall x (ch : res bool) (k : bool -> res (option play_error)), 
     (let! b := (if flag_contains f x then ch else Ok false) in k b) = Ok None -> k true <> Ok None -> 
     (if flag_contains f' x then ch else Ok false) = Ok false /\ k false = Ok None).
  { intros x ch k Hb Hk. apply bind_ok in Hb as ([] & E & Hb); [contradiction|]. split; [|exact Hb].
    destruct (flag_contains f' x) eqn:E'; [|reflexivity]. rewrite (flag_sub f f' x Hs E') in E. exact E. }
  apply Hstep in H as [E1 H]; [|discriminate]. rewrite E1. cbn [bind].
  apply Hstep in H as [E2 H]; [|discriminate]. rewrite E2. cbn [bind].
  apply Hstep in H as [E3 H]; [|discriminate]. rewrite E3. cbn [bind].
  apply Hstep in H as [E4 H]; [|discriminate]. rewrite E4. reflexivity.
Qed.

Lemma legals_mono dbg n b w g f f' : ginv n b w g -> (N.of_nat (length (chains (gm_goban g))) < 65535)%N -> N.land f f' = f' ->
  exists l l', legals_by dbg g f = Ok l /\ legals_by dbg g f' = Ok l' /\ l `sublist_of` l' /\ forall p, p ∈ l -> p ∈ l'.
Proof.
  intros G Hc Hs. pose proof (gi_wf _ _ _ _ G) as W. pose proof (gi_hist _ _ _ _ G) as Wh.
  eexists _, _. split; [apply (legals_by_ok dbg n g f W Wh Hc)|]. split; [apply (legals_by_ok dbg n g f' W Wh Hc)|].
  assert (Ha : forall p, allowed dbg g f p = true -> allowed dbg g f' p = true).
  { intros p H. unfold allowed in *. destruct (check_point_by dbg g p f) as [[]| |] eqn:E; try discriminate.
    rewrite (check_point_by_mono dbg g p f f' Hs E). reflexivity. }
  split.
  - generalize (List.filter (fun p => is_none (pos_of (gm_goban g) p)) (points n)). intros l.
    induction l as [|p l IH]; [constructor|]. cbn [List.filter]. destruct (allowed dbg g f p) eqn:E.
    + rewrite (Ha p E). constructor. exact IH.
    + destruct (allowed dbg g f' p); [constructor|]; exact IH.
  - intros p. rewrite !elem_of_lfilter. intros [H1 H2]. split; [exact H1|apply Ha, H2].
Qed.

Lemma legals_none dbg n g : wf n (gm_goban g) ->
  exists l, pseudo_legals g = Ok l /\ legals_by dbg g 0%N = Ok l /\ forall p, p ∈ l <-> on n p /\ pos_of (gm_goban g) p = None.
Proof.
  intros W. unfold legals_by, pseudo_legals. rewrite (get_empty_coords_ok n _ W). cbn [bind]. eexists. split; [reflexivity|]. split.
  - rewrite (filterM_ok _ (fun _ => true)).
    + f_equal. generalize (List.filter (fun p => is_none (pos_of (gm_goban g) p)) (points n)). intros l.
      induction l as [|p l IH]; [reflexivity|]. cbn [List.filter]. f_equal. exact IH.
    + intros p Hp. apply elem_of_lfilter in Hp as [Hp He]. apply elem_of_points in Hp. unfold check_point_by.
      rewrite (get_color_pos n _ _ W Hp). cbn [bind]. destruct (pos_of (gm_goban g) p); [discriminate|]. reflexivity.
  - intros p. rewrite elem_of_lfilter, elem_of_points. destruct (pos_of (gm_goban g) p); cbn [is_none]; intuition congruence.
Qed.

(** C55 *)
Lemma legals_moves_ok dbg n b w g : ginv n b w g -> (N.of_nat (length (chains (gm_goban g))) < 65535)%N -> gm_passes g <> 2%nat ->
  exists ms, legals_moves dbg g = Ok ms /\ (ms = [] -> is_over g = true) /\
    (forall m, m ∈ ms -> exists g', try_play dbg g m = Ok (g', Accepted)) /\
    (forall m, m ∈ ms -> (exists x y, m = MPlay x y /\ on n (x, y)) \/ ms = [MPass]).
Proof.
  intros G Hc Hps. pose proof (gi_wf _ _ _ _ G) as W. pose proof (gi_hist _ _ _ _ G) as Wh.
  set (f := N.lor (flag_illegal (gm_rule g)) FILLEYE).
  assert (Hs : N.land f (flag_illegal (gm_rule g)) = flag_illegal (gm_rule g)).
  { unfold f. apply N.bits_inj. intros i. rewrite N.land_spec, N.lor_spec. destruct (N.testbit (flag_illegal (gm_rule g)) i), (N.testbit FILLEYE i); reflexivity. }
  pose proof (legals_by_ok dbg n g f W Wh Hc) as E. unfold legals_moves. fold f. rewrite E. cbn [bind].
  pose proof (elem_of_legals dbg n g f _ W Wh Hc E) as Hm. revert Hm.
  generalize (List.filter (allowed dbg g f) (List.filter (fun p => is_none (pos_of (gm_goban g) p)) (points n))). intros l Hm.
  eexists. split; [reflexivity|]. destruct l as [|p l]; cbn [List.map].
  - split; [|split].
    + destruct (is_over g); [reflexivity|discriminate].
    + intros m Hin. destruct (is_over g); [apply elem_of_nil in Hin as []|]. apply elem_of_list_singleton in Hin as ->.
      unfold try_play. rewrite (proj2 (Nat.eqb_neq _ _) Hps). cbn [play]. unfold assert_.
      assert (Hl : (gm_passes g < 2)%nat) by (pose proof (gi_passes _ _ _ _ G); lia). apply Nat.ltb_lt in Hl. rewrite Hl. cbn [bind]. eauto.
    + intros m Hin. right. destruct (is_over g); [apply elem_of_nil in Hin as []|reflexivity].
  - split; [discriminate|].
    assert (Hin : forall m, m ∈ List.map (fun p : coord => MPlay (fst p) (snd p)) (p :: l) -> exists q, m = MPlay (fst q) (snd q) /\ q ∈ p :: l).
    { intros m H. apply elem_of_lmap in H as (q & -> & Hq). eauto. }
    split; intros m H; apply Hin in H as ([x y] & -> & Hq); apply Hm in Hq as [Hq Hcp]; cbn [fst snd].
    + apply (accepted_iff dbg n b w g x y G Hc Hps Hq). eapply check_point_by_mono; [exact Hs|exact Hcp].
    + left. eauto.
Qed.
