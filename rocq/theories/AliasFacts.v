(** Stones tried on coordinates beyond the edge. *)
From stdpp Require Import relations sorting.
From Verif Require Import AliasSpec PlayoutSpec.
From Verif Require Import MonadFacts Struct Push Inv Bridge GameFacts RulesFacts KoFacts BoardFacts CheckFacts EyeFacts EyeExact LegalFacts LegalsFacts ClaimFacts.
From Verif Require Import VerdictFacts BoundsFacts CoordClaims Samples SampleFacts RefuteFacts.
From Coq Require Import Lia ZArith.

Local Notation length := Datatypes.length.

(** ** Eyes around a coordinate *)

Lemma corners_stand_small n p : n <= 19 -> small_coord p -> Forall2 (stands n p) directions (corner_list p).
Proof.
  destruct p as [x y]. intros Hn [Hx Hy]. cbn [fst snd] in *. unfold directions, corner_list.
  assert (Hp : forall u v : nat, (u < n)%nat -> Z.of_nat u = (Z.of_nat v + -1)%Z <-> u = u8_wrapping_pred v) by (intros u [|v] Hu; cbn [u8_wrapping_pred]; lia).
  assert (Hs : forall u v : nat, Z.of_nat u = (Z.of_nat v + 1)%Z <-> u = S v) by (intros; lia).
  apply Forall2_cons_2; [|apply Forall2_cons_2; [|apply Forall2_cons_2; [|apply Forall2_cons_2; [|apply Forall2_nil_2]]]]; intros [a b] [Ha Hb]; cbn [fst snd] in *; unfold corner; cbn [fst snd];
    rewrite ?(Hs a x), ?(Hs b y), ?(Hp a x Ha), ?(Hp b y Hb); (split; [intros [-> ->]; reflexivity|intros [= -> ->]; auto]).
Qed.

Section Around.
  Context (dbg : bool) (n : nat) (g : game) (z : coord).
  Hypothesis W : wf n (gm_goban g).
  Hypothesis Hz : small_coord z.
  Local Notation P := (pos_of (gm_goban g)).

  Lemma around : exists l, neighbors_coords dbg (gm_goban g) z = Ok l /\ forall q, q ∈ l <-> on n q /\ adj z q.
  Proof using All.
    pose proof (wf_n n _ W) as Hn. destruct Hz as [Hx Hy].
    destruct (neighbours_rect dbg n n z ltac:(lia) ltac:(lia) Hx Hy) as (l & E & _ & H). exists l.
    unfold neighbors_coords. rewrite (wf_size n _ W). split; [exact E|exact H].
  Qed.

  Lemma small_safe_corners c k : safe_corners n P c z k <-> good_corners n P c z = k.
  Proof using All.
    pose proof (wf_n n _ W) as Hn. unfold good_corners. rewrite (good_count n P c ltac:(lia)).
    destruct (safe_list n P c ltac:(lia) z directions (corner_list z) (corners_stand_small n z ltac:(lia) Hz) NoDup_directions) as (l & N1 & L1 & H1). split.
    - intros (l' & N2 & <- & H2). rewrite <- L1. apply Permutation_length, NoDup_Permutation; [exact N1|exact N2|]. intros d. rewrite H1, H2. reflexivity.
    - intros <-. exists l. auto.
  Qed.

  Lemma around_liberties : exists v, has_liberties dbg (gm_goban g) z = Ok v /\ (v = true <-> exists q, on n q /\ adj z q /\ P q = None).
  Proof using All.
    unfold has_liberties. destruct around as (l & -> & Hl). cbn [bind].
    rewrite (anyM_ok _ (fun q => mcolor_eqb (P q) None)).
    - eexists. split; [reflexivity|]. rewrite existsb_spec. split.
      + intros (q & Hq & E). apply Hl in Hq as [Hq Ha]. exists q. destruct (mcolor_eqb_spec (P q) None); [tauto|discriminate].
      + intros (q & Hq & Ha & E). exists q. split; [apply Hl; tauto|]. rewrite E. reflexivity.
    - intros q Hq. apply Hl in Hq as [Hq _]. rewrite (get_color_pos n _ q W Hq). reflexivity.
  Qed.

  Lemma around_eye c : get_color (gm_goban g) z = Ok None ->
    exists v, check_eye dbg g (z, c) = Ok v /\ (v = true <-> eye_shape n P c z).
  Proof using All.
    intros Ez. pose proof (wf_n n _ W) as Hn. assert (HPz : P z = None) by (unfold pos_of; rewrite Ez; reflexivity).
    unfold check_eye, eye_shape. rewrite Ez. cbn [bind].
    destruct around as (l & El & Hl). rewrite El. cbn [bind].
    rewrite (anyM_ok _ (fun q => negb (mcolor_eqb (P q) (Some c)))).
    2:{ intros q Hq. apply Hl in Hq as [Hq _]. rewrite (get_color_pos n _ q W Hq). reflexivity. }
    cbn [bind]. destruct (existsb (fun q => negb (mcolor_eqb (P q) (Some c))) l) eqn:EB.
    { exists false. split; [reflexivity|]. split; [discriminate|]. intros (_ & H & _). exfalso.
      apply existsb_spec in EB as (q & Hq & E). apply Hl in Hq as [Hq Ha]. rewrite (H q Hq Ha) in E. destruct c; discriminate E. }
    assert (HX : forall q, on n q -> adj z q -> P q = Some c).
    { intros q Hq Ha. rewrite existsb_false in EB. specialize (EB q (proj2 (Hl q) (conj Hq Ha))).
      destruct (mcolor_eqb_spec (P q) (Some c)); [assumption|discriminate EB]. }
    rewrite (helper_small dbg n g z c W Hz). cbn [bind].
    change (length (List.filter (is_ally n P c) (corner_list z)) + length (List.filter (is_off n) (corner_list z)))%nat with (good_corners n P c z).
    pose proof (small_safe_corners c 4) as S4. pose proof (small_safe_corners c 3) as S3. pose proof (small_safe_corners c 2) as S2.
    pose proof (scan_iff n P c ltac:(lia) z directions (corner_list z) (corners_stand_small n z ltac:(lia) Hz)) as HS.
    destruct (Nat.eqb_spec (good_corners n P c z) 4) as [E4|E4].
    { exists true. split; [reflexivity|]. split; [intros _|reflexivity]. rewrite S4. auto. }
    destruct ((good_corners n P c z =? 3) || (good_corners n P c z =? 2)) eqn:E32.
    - rewrite (check_eye_corners_ok dbg n g c).
      + eexists. split; [reflexivity|]. rewrite HS, S4, S3, S2. apply orb_true_iff in E32. rewrite !Nat.eqb_eq in E32. tauto.
      + exact W.
      + intros q Hq. apply elem_of_lfilter in Hq as [_ Hq]. apply andb_true_iff in Hq as [Hq _]. apply valid_on, Hq.
    - exists false. split; [reflexivity|]. split; [discriminate|]. rewrite S4, S3, S2. apply orb_false_iff in E32. rewrite !Nat.eqb_neq in E32. tauto.
  Qed.
End Around.

(** ** The checks *)

Section Alias.
  Context (dbg : bool) (n b w : nat) (g : game) (z p : coord).
  Hypothesis HG : greach dbg n b w g.
  Hypothesis Hz : small_coord z.
  Hypothesis HA : alias n z p.
  Let G := greach_inv _ _ _ _ _ HG.
  Let W := gi_wf _ _ _ _ G.
  Let Wh := gi_hist _ _ _ _ G.
  Local Notation P := (position g).

  Lemma alias_color : get_color (gm_goban g) z = Ok (P p).
  Proof using All.
    destruct HA as (_ & Hp & E). rewrite <- (get_color_pos n _ p W Hp : get_color (gm_goban g) p = Ok (P p)).
    unfold get_color. rewrite (wf_size n _ W). unfold two_to_1dim. cbn [fst snd]. rewrite E. reflexivity.
  Qed.
  Lemma alias_pos : P z = P p.
  Proof using All. unfold position at 1, pos_of. rewrite alias_color. reflexivity. Qed.
  Lemma alias_groups : get_connected_groups dbg (gm_goban g) z = get_connected_groups dbg (gm_goban g) p.
  Proof using All.
    destruct HA as (_ & Hp & E). unfold get_connected_groups. rewrite (wf_size n _ W). unfold two_to_1dim. cbn [fst snd]. rewrite E. reflexivity.
  Qed.

  Lemma alias_suicide c : P p = None ->
    exists v, check_suicide dbg g (z, c) = Ok v /\ (v = true <-> (forall q, on n q -> adj z q -> P q <> None) /\ crowded n P p c).
  Proof using All.
    destruct HA as (_ & Hp & _). intros He. unfold check_suicide. cbn [fst snd].
    destruct (around_liberties dbg n g z W Hz) as (hl & -> & Hhl). cbn [bind]. fold P in Hhl. destruct hl.
    { exists false. split; [reflexivity|]. split; [discriminate|]. intros [H _]. exfalso. destruct (proj1 Hhl eq_refl) as (q & Hq & Ha & E). exact (H q Hq Ha E). }
    assert (Hno : forall q, on n q -> adj z q -> P q <> None) by (intros q Hq Ha E; assert (false = true) as F by (apply Hhl; eauto); discriminate F).
    rewrite alias_groups. destruct (connected_groups_ok dbg n _ p W Hp) as (l & -> & Hl). cbn [bind]. eexists. split; [reflexivity|].
    rewrite negb_true_iff, existsb_false. split.
    - intros H. split; [exact Hno|]. intros q Hq Ha. split; intros Hc.
      + destruct (group_at_ex n _ q W Hq) as [grp HGa]; [fold P; congruence|].
        pose proof (group_at_color n _ q grp W Hq HGa) as Hcg. fold P in Hcg.
        specialize (H grp (proj2 (Hl grp) (ex_intro _ q (conj Hq (conj Ha HGa))))).
        replace (g_color grp) with c in H by congruence. rewrite color_eqb_refl in H. apply negb_false_iff in H.
        apply (atari_only n _ p q grp W Hp Hq Ha He HGa), H.
      + intros F. destruct (group_at_ex n _ q W Hq) as [grp HGa]; [fold P; congruence|].
        pose proof (group_at_color n _ q grp W Hq HGa) as Hcg. fold P in Hcg.
        specialize (H grp (proj2 (Hl grp) (ex_intro _ q (conj Hq (conj Ha HGa))))).
        replace (g_color grp) with (opp c) in H by congruence. destruct (color_eqb_spec (opp c) c) as [E|_]; [destruct (opp_ne c E)|].
        assert (is_atari grp = true); [|congruence]. apply (atari_only n _ p q grp W Hp Hq Ha He HGa), F.
    - intros [_ H] grp Hg. apply Hl in Hg as (q & Hq & Ha & HGa). destruct (H q Hq Ha) as [H1 H2].
      pose proof (group_at_color n _ q grp W Hq HGa) as Hcg. fold P in Hcg. destruct (color_eqb_spec (g_color grp) c) as [E|E].
      + apply negb_false_iff. apply (atari_only n _ p q grp W Hp Hq Ha He HGa), H1. congruence.
      + destruct (is_atari grp) eqn:Ea; [|reflexivity]. exfalso. apply ne_opp in E. apply H2; [congruence|].
        apply (atari_only n _ p q grp W Hp Hq Ha He HGa), Ea.
  Qed.

  Lemma alias_ko c : check_ko dbg g (z, c) = Ok false.
  Proof using All.
    unfold check_ko. cbn [fst]. destruct (gm_ko_point g) as [k|] eqn:E; [|reflexivity].
    destruct (coord_eqb k z) eqn:F; [|reflexivity]. apply coord_eqb_eq in F as ->. exfalso. apply (proj1 HA). exact (gi_ko _ _ _ _ G z E).
  Qed.

  (** the game without ko point *)
  Local Definition no_ko_game : game :=
    mkGame (gm_goban g) (gm_passes g) (gm_prisoners g) (gm_outcome g) (gm_turn g) (gm_rule g) (gm_handicap g) (gm_history g) None.

  Lemma alias_super_ko_same : check_super_ko dbg g (z, gm_turn g) = check_super_ko dbg no_ko_game (p, gm_turn g).
  Proof using All.
    unfold check_super_ko. cbn [fst no_ko_game gm_history]. destruct (length (gm_history g) <=? 2); [reflexivity|].
    assert (E1 : will_capture dbg g z = will_capture dbg no_ko_game p) by (unfold will_capture; rewrite alias_groups; reflexivity).
    assert (E2 : play_for_verification dbg g z = play_for_verification dbg no_ko_game p).
    { destruct HA as (_ & _ & E). destruct z as [zx zy], p as [px py]. unfold play_for_verification, push_wth_feedback. cbn [no_ko_game gm_goban gm_turn gm_rule].
      rewrite (wf_size n _ W). unfold two_to_1dim. cbn [fst snd] in *. rewrite E. reflexivity. }
    rewrite E1, E2, alias_ko. cbn [check_ko no_ko_game gm_ko_point]. reflexivity.
  Qed.

  Lemma alias_super_ko : P p = None ->
    (check_super_ko dbg g (z, gm_turn g) = Panic /\ no_slot_left g) \/
    exists v, check_super_ko dbg g (z, gm_turn g) = Ok v /\
      (v = true <-> 2 < length (gm_history g) /\ captures n P p (gm_turn g) /\ repeats_seen n (table_of g) p).
  Proof using All.
    intros He. rewrite alias_super_ko_same.
    destruct (check_super_ko_ok dbg n no_ko_game p W Wh (proj1 (proj2 HA)) He) as [F|(v & E & Hv)]; [left; exact F|right].
    exists v. split; [exact E|]. rewrite Hv. unfold captures, repeats_seen. cbn [no_ko_game gm_ko_point gm_history gm_goban gm_turn t_pos t_seen t_turn table_of].
    change (pos_of (gm_goban g)) with P. split.
    - intros (H1 & H2 & [[F _]|(y & R & Hy & HR & HS)]); [discriminate F|]. split; [exact H1|]. split; [exact H2|].
      exists R, (pos_of y). split; [exact HR|]. split; [apply in_seen; eauto|exact HS].
    - intros (H1 & H2 & (R & Q & HR & HQ & HS)). apply in_seen in HQ as (y & -> & Hy). split; [exact H1|]. split; [exact H2|]. right. eauto.
  Qed.

  Lemma alias_judged :
    (try_play dbg g (MPlay (fst z) (snd z)) = Panic /\ no_slot_left g) \/
    exists g' v, try_play dbg g (MPlay (fst z) (snd z)) = Ok (g', v) /\
      first_reason (alias_reasons n (flag_illegal (gm_rule g)) (table_of g) z p) v /\
      (v = Accepted -> play dbg g (MPlay (fst p) (snd p)) = Ok g').
  Proof using All.
    set (f := flag_illegal (gm_rule g)). unfold alias_reasons. cbn [t_passes t_pos t_turn t_seen table_of]. rewrite map_length.
    unfold try_play. destruct (Nat.eqb_spec (gm_passes g) 2) as [HP|HP].
    { right. exists g, (Refused EGamePaused). split; [reflexivity|]. split; [apply first_reason_hit, HP|discriminate]. }
    rewrite <- (surjective_pairing z), alias_color. cbn [bind]. destruct (P p) as [cp|] eqn:He; cbn [mcolor_eqb negb].
    { right. exists g, (Refused EPointNotEmpty). split; [reflexivity|]. split; [|discriminate].
      apply first_reason_skip; [exact HP|]. apply first_reason_hit. discriminate. }
    unfold check_point, check_point_by. rewrite alias_color, He. cbn [bind]. fold f.
    assert (B1 : flag_contains f SUICIDE = no_suicide f) by exact (suicide_bit (mkRule (r_komi (gm_rule g)) f 0%N)).
    assert (B3 : flag_contains f FILLEYE = no_fill_eye f) by exact (fill_eye_bit (mkRule (r_komi (gm_rule g)) f 0%N)).
    assert (B4 : flag_contains f SUPERKO = no_superko f) by exact (superko_bit (mkRule (r_komi (gm_rule g)) f 0%N)).
    rewrite B1, B3, B4.
    assert (H1 : exists v, (if no_suicide f then check_suicide dbg g (z, gm_turn g) else Ok false) = Ok v /\
       (v = true <-> no_suicide f = true /\ (forall q, on n q -> adj z q -> P q <> None) /\ crowded n P p (gm_turn g))).
    { destruct (no_suicide f); [|exists false; split; [reflexivity|split; [discriminate|intros [F _]; discriminate F]]].
      destruct (alias_suicide (gm_turn g) He) as (v & E & Hv). exists v. split; [exact E|]. rewrite Hv. split; [auto|intros [_ K]; exact K]. }
    destruct H1 as (v1 & E1 & H1). rewrite E1. cbn [bind].
    assert (K0 : ~ (None : option color) <> None) by (intros F; apply F; reflexivity).
    destruct v1.
    { right. exists g, (Refused ESuicide). split; [reflexivity|]. split; [|discriminate]. do 2 (apply first_reason_skip; [assumption|]). apply first_reason_hit, H1. reflexivity. }
    assert (K1 : ~ (no_suicide f = true /\ (forall q, on n q -> adj z q -> P q <> None) /\ crowded n P p (gm_turn g))) by (rewrite <- H1; discriminate).
    assert (E2 : (if flag_contains f KO then check_ko dbg g (z, gm_turn g) else Ok false) = Ok false) by (destruct (flag_contains f KO); [apply alias_ko|reflexivity]).
    rewrite E2. cbn [bind].
    assert (H3 : exists v, (if no_fill_eye f then check_eye dbg g (z, gm_turn g) else Ok false) = Ok v /\
       (v = true <-> no_fill_eye f = true /\ eye_shape n P (gm_turn g) z)).
    { destruct (no_fill_eye f); [|exists false; split; [reflexivity|split; [discriminate|intros [F _]; discriminate F]]].
      destruct (around_eye dbg n g z W Hz (gm_turn g)) as (v & E & Hv); [rewrite alias_color, He; reflexivity|]. exists v. split; [exact E|]. rewrite Hv. split; [auto|intros [_ K]; exact K]. }
    destruct H3 as (v3 & E3 & H3). rewrite E3. cbn [bind].
    destruct v3.
    { right. exists g, (Refused EFillEye). split; [reflexivity|]. split; [|discriminate]. do 3 (apply first_reason_skip; [assumption|]). apply first_reason_hit, H3. reflexivity. }
    assert (K3 : ~ (no_fill_eye f = true /\ eye_shape n P (gm_turn g) z)) by (rewrite <- H3; discriminate).
    assert (H4 : (if no_superko f then check_super_ko dbg g (z, gm_turn g) else Ok false) = Panic /\ no_slot_left g \/
       exists v, (if no_superko f then check_super_ko dbg g (z, gm_turn g) else Ok false) = Ok v /\
         (v = true <-> no_superko f = true /\ 2 < length (gm_history g) /\ captures n P p (gm_turn g) /\ repeats_seen n (table_of g) p)).
    { destruct (no_superko f); [|right; exists false; split; [reflexivity|split; [discriminate|intros [F _]; discriminate F]]].
      destruct (alias_super_ko He) as [F|(v & E & Hv)]; [left; exact F|right]. exists v. split; [exact E|]. rewrite Hv. split; [auto|intros [_ K]; exact K]. }
    destruct H4 as [[E4 L]|(v4 & E4 & H4)]; rewrite E4; cbn [bind]; [left; auto|]. destruct v4; cbn [bind].
    - right. exists g, (Refused EKo). split; [reflexivity|]. split; [|discriminate]. do 4 (apply first_reason_skip; [assumption|]). apply first_reason_hit, H4. reflexivity.
    - rewrite (play_alias dbg n b w g (fst z) (snd z) (fst p) (snd p) G (proj2 (proj2 HA))).
      pose proof (proj1 (proj2 HA)) as Hp. rewrite (surjective_pairing p) in Hp, He.
      destruct (play_spec dbg n b w g (fst p) (snd p) G Hp He) as [[F [L _]]|(g' & Eg & _)]; [left; rewrite F; auto|right]. rewrite Eg. cbn [bind].
      exists g', Accepted. split; [reflexivity|]. split; [|auto]. do 4 (apply first_reason_skip; [assumption|]).
      apply first_reason_skip; [rewrite <- H4; discriminate|]. constructor.
  Qed.
End Alias.

Theorem alias_verdict dbg n b w g x y p v : greach dbg n b w g -> alias n (x, y) p -> x < 255 -> y < 255 -> ~ no_slot_left g ->
  ((exists g', try_play dbg g (MPlay x y) = Ok (g', v)) <->
   first_reason (alias_reasons n (flag_illegal (gm_rule g)) (table_of g) (x, y) p) v) /\
  (forall g', try_play dbg g (MPlay x y) = Ok (g', Accepted) -> play dbg g (MPlay (fst p) (snd p)) = Ok g').
Proof.
  intros HG HA Hx Hy HL.
  destruct (alias_judged dbg n b w g (x, y) p HG (conj Hx Hy) HA) as [[_ F]|(g' & v' & E & HJ & HP)]; [contradiction|]. cbn [fst snd] in E. split; [split|].
  - intros (g2 & E2). rewrite E in E2. injection E2 as <- <-. exact HJ.
  - intros HJ'. rewrite (first_reason_unique _ _ _ HJ' HJ). eauto.
  - intros g2 E2. rewrite E in E2. injection E2 as <- ->. apply HP. reflexivity.
Qed.
