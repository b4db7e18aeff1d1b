(** The eye check, on boards whose width divides their height. *)
From stdpp Require Import relations sorting.
From Verif Require Import EyeSpec MonadFacts Spec Game BitsetFacts CoordFacts Struct Push Inv Remove Capture Bridge GameFacts RulesFacts KoFacts BoardFacts CheckFacts EyeFacts EyeExact.
From Verif Require Import RectVerdictSpec RectSpec RectCoord RectInv RectRemove RectCapture RectBridge RectGame RectRules RectBoard RectCheck.
From Coq Require Import Lia ZArith.

Local Notation length := Datatypes.length.

Lemma ron_small n p : fits n -> ron n p -> small_coord p.
Proof. intros Hn [Hx Hy]. pose proof (fits_wide n Hn). destruct Hn as (? & _). unfold small_coord. lia. Qed.

Lemma rvalid_on n p : is_coord_valid n p = true <-> ron n p.
Proof. unfold is_coord_valid, ron. cbn [fst snd]. rewrite andb_true_iff, !Nat.ltb_lt. reflexivity. Qed.

Definition ris_ally (n : size_t) (P : pos) (c : color) (q : coord) : bool := is_coord_valid n q && mcolor_eqb (P q) (Some c).
Definition ris_off (n : size_t) (q : coord) : bool := negb (is_coord_valid n q).
Definition ris_emp (n : size_t) (P : pos) (q : coord) : bool := is_coord_valid n q && is_none (P q).

Lemma rhelper_small dbg n g p c : rwf n (gm_goban g) -> small_coord p ->
  helper_check_eye dbg g p c =
  Ok (List.filter (ris_ally n (pos_of (gm_goban g)) c) (corner_list p),
      List.filter (ris_off n) (corner_list p),
      List.filter (ris_emp n (pos_of (gm_goban g))) (corner_list p)).
Proof.
  intros W Hp. pose proof (rwf_n n _ W) as Hn. unfold helper_check_eye. rewrite (corners_ok dbg p Hp). cbn [bind].
  rewrite (rwf_size n _ W).
  assert (H : forall l (ally off emp : list coord), (length ally + length l <= 4)%nat -> (length off + length l <= 4)%nat -> (length emp + length l <= 4)%nat ->
    foldM (fun '(ally, off, emp) q =>
           if is_coord_valid n q then
             let! cc := get_color (gm_goban g) q in
             match cc with
             | None => let! emp' := av_push 4 emp q in Ok (ally, off, emp')
             | Some c' =>
                 if color_eqb c' c then let! ally' := av_push 4 ally q in Ok (ally', off, emp)
                 else Ok (ally, off, emp)
             end
           else let! off' := av_push 4 off q in Ok (ally, off', emp)) l (ally, off, emp) =
    Ok (ally ++ List.filter (ris_ally n (pos_of (gm_goban g)) c) l, off ++ List.filter (ris_off n) l,
        emp ++ List.filter (ris_emp n (pos_of (gm_goban g))) l)).
  { induction l as [|q l IH]; intros ally off emp H1 H2 H3.
    - cbn. rewrite !app_nil_r. reflexivity.
    - cbn [foldM List.filter length] in *. unfold ris_ally at 1, ris_off at 1, ris_emp at 1.
      destruct (is_coord_valid n q) eqn:Ev; cbn [andb negb].
      + apply rvalid_on in Ev. rewrite (rget_color_pos n _ q W Ev). cbn [bind].
        destruct (pos_of (gm_goban g) q) as [c'|]; cbn [mcolor_eqb is_none].
        * destruct (color_eqb c' c).
          -- rewrite av_push_ok by lia. cbn [bind]. rewrite IH by (rewrite ?app_length; cbn; lia). rewrite <- app_assoc. reflexivity.
          -- cbn [bind]. rewrite IH by lia. reflexivity.
        * rewrite av_push_ok by lia. cbn [bind]. rewrite IH by (rewrite ?app_length; cbn; lia). rewrite <- app_assoc. reflexivity.
      + rewrite av_push_ok by lia. cbn [bind]. rewrite IH by (rewrite ?app_length; cbn; lia). rewrite <- app_assoc. reflexivity. }
  rewrite H; [reflexivity|destruct p; cbn; lia..].
Qed.

Lemma rhelper_ok dbg n g p c : rwf n (gm_goban g) -> ron n p ->
  helper_check_eye dbg g p c =
  Ok (List.filter (ris_ally n (pos_of (gm_goban g)) c) (corner_list p),
      List.filter (ris_off n) (corner_list p),
      List.filter (ris_emp n (pos_of (gm_goban g))) (corner_list p)).
Proof. intros W Hp. apply rhelper_small; [exact W|]. apply (ron_small n p); [exact (rwf_n n _ W)|exact Hp]. Qed.

Lemma rconnected_stones_ok dbg n g p : rwf n g -> ron n p ->
  exists l, get_connected_stones dbg g p = Ok l /\ forall q c, (q, c) ∈ l <-> ron n q /\ adj p q /\ pos_of g q = Some c.
Proof.
  intros W Hp. unfold get_connected_stones. rewrite (rconnected_points_ok dbg n g p W Hp). cbn [bind].
  eexists. split; [reflexivity|]. intros q c. rewrite elem_of_list_omap. split.
  - intros ([q' c'] & H & E). apply elem_of_lmap in H as (q2 & E2 & H2). injection E2 as -> ->. cbn [fst snd] in E.
    destruct (pos_of g q2) as [x|] eqn:Ex; [|discriminate]. injection E as -> ->.
    apply (relem_of_nbrs n p q Hp) in H2. tauto.
  - intros (H1 & H2 & H3). exists (q, pos_of g q). split.
    + apply elem_of_lmap. exists q. split; [reflexivity|]. apply (relem_of_nbrs n p q Hp). tauto.
    + cbn [fst snd]. rewrite H3. reflexivity.
Qed.

(** How many of the four corners of [p] are off the board or of colour [c]. *)
Definition rgood_corners (n : size_t) (P : pos) (c : color) (p : coord) : nat :=
  (length (List.filter (ris_ally n P c) (corner_list p)) + length (List.filter (ris_off n) (corner_list p)))%nat.

(** The loop over the empty corners, as a function of the position. *)
Definition renemy_near (n : size_t) (P : pos) (c : color) (q : coord) : bool :=
  existsb (fun t => mcolor_eqb (P t) (Some (opp c))) (rnbrs n q).
Fixpoint rcorner_scan (n : size_t) (P : pos) (c : color) (l : list coord) : bool :=
  match l with
  | [] => false
  | q :: t =>
      if renemy_near n P c q then false
      else if (rgood_corners n P c q =? 3)%nat || (rgood_corners n P c q =? 2)%nat then true
      else rcorner_scan n P c t
  end.

(** The eye check as a function of the position. *)
Definition reye (n : size_t) (P : pos) (c : color) (p : coord) : bool :=
  is_none (P p) && forallb (fun q => mcolor_eqb (P q) (Some c)) (rnbrs n p) &&
  ((rgood_corners n P c p =? 4)%nat ||
   (((rgood_corners n P c p =? 3)%nat || (rgood_corners n P c p =? 2)%nat) &&
    rcorner_scan n P c (List.filter (ris_emp n P) (corner_list p)))).

Lemma rcheck_eye_corners_ok dbg n g c l : rwf n (gm_goban g) -> (forall q, q ∈ l -> ron n q) ->
  check_eye_corners dbg g c l = Ok (rcorner_scan n (pos_of (gm_goban g)) c l).
Proof.
  intros W. induction l as [|q l IH]; intros Hl; [reflexivity|]. cbn [check_eye_corners rcorner_scan].
  pose proof (Hl q (elem_of_list_here _ _)) as Hq.
  destruct (rconnected_stones_ok dbg n _ q W Hq) as (st & -> & Hst). cbn [bind].
  replace (existsb (fun s : stone => negb (color_eqb (snd s) c)) st) with (renemy_near n (pos_of (gm_goban g)) c q).
  - destruct (renemy_near n _ c q); [reflexivity|]. rewrite (rhelper_ok dbg n g q c W Hq). cbn [bind]. unfold rgood_corners.
    destruct (_ || _); [reflexivity|]. apply IH. intros q' Hq'. apply Hl. right. exact Hq'.
  - apply eq_true_iff_eq. unfold renemy_near. rewrite !existsb_spec. split.
    + intros (t & Ht & E). apply (relem_of_nbrs n q t Hq) in Ht as [Ht Ha].
      destruct (mcolor_eqb_spec (pos_of (gm_goban g) t) (Some (opp c))) as [E'|]; [|discriminate].
      exists (t, opp c). split; [apply Hst; tauto|]. cbn. destruct c; reflexivity.
    + intros ([t x] & Ht & E). apply Hst in Ht as (Ht & Ha & Hx). exists t. split; [apply (relem_of_nbrs n q t Hq); tauto|].
      cbn in E. rewrite Hx. destruct x, c; cbn in *; congruence.
Qed.

Lemma rcheck_eye_ok dbg n g p c : rwf n (gm_goban g) -> ron n p ->
  check_eye dbg g (p, c) = Ok (reye n (pos_of (gm_goban g)) c p).
Proof.
  intros W Hp. unfold check_eye, reye. rewrite (rget_color_pos n _ p W Hp). cbn [bind].
  destruct (pos_of (gm_goban g) p) as [x|]; [reflexivity|]. cbn [is_none andb].
  rewrite (rneighbors_ok dbg n _ p W Hp). cbn [bind].
  rewrite (anyM_ok _ (fun q => negb (mcolor_eqb (pos_of (gm_goban g) q) (Some c)))).
  2:{ intros q Hq. apply (relem_of_nbrs n p q Hp) in Hq as [Hq _]. rewrite (rget_color_pos n _ q W Hq). reflexivity. }
  cbn [bind].
  replace (forallb (fun q => mcolor_eqb (pos_of (gm_goban g) q) (Some c)) (rnbrs n p))
    with (negb (existsb (fun q => negb (mcolor_eqb (pos_of (gm_goban g) q) (Some c))) (rnbrs n p))).
  2:{ induction (rnbrs n p) as [|q l IH]; [reflexivity|]. cbn [existsb forallb]. rewrite negb_orb, negb_involutive, IH. reflexivity. }
  destruct (existsb _ _); [reflexivity|]. cbn [negb andb]. rewrite (rhelper_ok dbg n g p c W Hp). cbn [bind].
  change (length (List.filter (ris_ally n (pos_of (gm_goban g)) c) (corner_list p)) + length (List.filter (ris_off n) (corner_list p)))%nat
    with (rgood_corners n (pos_of (gm_goban g)) c p).
  destruct (rgood_corners n _ c p =? 4)%nat; [reflexivity|]. cbn [orb].
  destruct (_ || _); [|reflexivity]. cbn [andb].
  apply rcheck_eye_corners_ok; [exact W|]. intros q Hq. apply elem_of_lfilter in Hq as [_ Hq].
  apply andb_true_iff in Hq as [Hq _]. apply rvalid_on, Hq.
Qed.

(** [q] is the point, if any, in direction [d] *)
Definition rstands (n : size_t) (p : coord) (d : Z * Z) (q : coord) : Prop :=
  forall q', ron n q' -> (corner p d q' <-> q' = q).

Lemma rcorners_stand n p : fits n -> ron n p -> Forall2 (rstands n p) directions (corner_list p).
Proof.
  destruct p as [x y]. intros Hn [Hx Hy]. pose proof (fits_wide n Hn) as Hw. pose proof Hn as (Hn1 & _). cbn [fst snd] in *. unfold directions, corner_list.
  assert (Hp : forall u v : nat, (u < 19)%nat -> Z.of_nat u = (Z.of_nat v + -1)%Z <-> u = u8_wrapping_pred v) by (intros u [|v] Hu; cbn [u8_wrapping_pred]; lia).
  assert (Hs : forall u v : nat, Z.of_nat u = (Z.of_nat v + 1)%Z <-> u = S v) by (intros; lia).
  apply Forall2_cons_2; [|apply Forall2_cons_2; [|apply Forall2_cons_2; [|apply Forall2_cons_2; [|apply Forall2_nil_2]]]]; intros [a b] [Ha Hb]; cbn [fst snd] in *; assert (Ha' : (a < 19)%nat) by lia; assert (Hb' : (b < 19)%nat) by lia; unfold corner; cbn [fst snd];
    rewrite ?(Hs a x), ?(Hs b y), ?(Hp a x Ha'), ?(Hp b y Hb'); (split; [intros [-> ->]; reflexivity|intros [= -> ->]; auto]).
Qed.

Section Eye.
  Variables (n : size_t) (P : pos) (c : color).
  Hypothesis Hn : fits n.

  Definition rgood (q : coord) : bool := ris_off n q || ris_ally n P c q.

  Lemma rgood_count l : (length (List.filter (ris_ally n P c) l) + length (List.filter (ris_off n) l) = length (List.filter rgood l))%nat.
  Proof using All.
    induction l as [|q l IH]; [reflexivity|]. cbn [List.filter]. change (rgood q) with (ris_off n q || ris_ally n P c q).
    destruct (ris_off n q) eqn:Eo, (ris_ally n P c q) eqn:Ea; cbn [orb Datatypes.length]; try lia.
    unfold ris_off in Eo. unfold ris_ally in Ea. destruct (is_coord_valid n q); discriminate.
  Qed.

  Lemma rgood_safe p d q : rstands n p d q -> rgood q = true <-> rsafe_corner n P c p d.
  Proof using All.
    intros H. unfold rgood, ris_off, ris_ally. destruct (is_coord_valid n q) eqn:E; cbn [negb orb andb].
    - apply rvalid_on in E. split.
      + intros K q' Hq' Hc. apply (H q' Hq') in Hc as ->. destruct (mcolor_eqb_spec (P q) (Some c)); [assumption|discriminate].
      + intros K. rewrite (K q E); [cbn; apply color_eqb_refl|]. apply (H q E). reflexivity.
    - split; [|reflexivity]. intros _ q' Hq' Hc. apply (H q' Hq') in Hc as ->. apply rvalid_on in Hq'. congruence.
  Qed.

  Lemma rsafe_list p ds qs : Forall2 (rstands n p) ds qs -> NoDup ds ->
    exists l, NoDup l /\ length l = length (List.filter rgood qs) /\ forall d, d ∈ l <-> d ∈ ds /\ rsafe_corner n P c p d.
  Proof using All.
    induction 1 as [|d q ds qs Hd _ IH]; intros Nd.
    { exists []. split; [apply NoDup_nil_2|]. split; [reflexivity|]. intros d. split; [intros F; apply elem_of_nil in F; contradiction|intros [F _]; exact F]. }
    apply NoDup_cons in Nd as [Hnot Nd]. destruct (IH Nd) as (l & N1 & L1 & H1). cbn [List.filter].
    pose proof (rgood_safe p d q Hd) as K. destruct (rgood q).
    - exists (d :: l). split; [apply NoDup_cons; split; [rewrite H1; tauto|exact N1]|]. split; [cbn [Datatypes.length]; lia|].
      intros d'. rewrite !elem_of_cons, H1. split; [intros [->|]; tauto|intros [[->|] ?]; auto].
    - exists l. split; [exact N1|]. split; [exact L1|]. intros d'. rewrite elem_of_cons, H1. split; [tauto|].
      intros [[->|Hd'] Hs]; [apply K in Hs; discriminate|auto].
  Qed.

  Lemma rsafe_corners_iff p k : ron n p -> rsafe_corners n P c p k <-> rgood_corners n P c p = k.
  Proof using All.
    intros Hp. unfold rgood_corners. rewrite rgood_count.
    destruct (rsafe_list p directions (corner_list p) (rcorners_stand n p Hn Hp) NoDup_directions) as (l & N1 & L1 & H1). split.
    - intros (l' & N2 & <- & H2). rewrite <- L1. apply Permutation_length, NoDup_Permutation; [exact N1|exact N2|]. intros d. rewrite H1, H2. reflexivity.
    - intros <-. exists l. auto.
  Qed.

  Lemma rattacked_iff q : ron n q -> renemy_near n P c q = true <-> rattacked n P c q.
  Proof using All.
    intros Hq. unfold renemy_near. rewrite existsb_spec. split.
    - intros (t & Ht & E). apply (relem_of_nbrs n q t Hq) in Ht as [Ht Ha]. exists t. destruct (mcolor_eqb_spec (P t) (Some (opp c))); [auto|discriminate].
    - intros (t & Ht & Ha & E). exists t. split; [apply (relem_of_nbrs n q t Hq); auto|]. rewrite E. cbn. apply color_eqb_refl.
  Qed.

  Lemma rscan_iff p ds qs : Forall2 (rstands n p) ds qs ->
    rcorner_scan n P c (List.filter (ris_emp n P) qs) = true <->
    exists i d q, ds !! i = Some d /\ rhole n P p d q /\ ~ rattacked n P c q /\
     (rsafe_corners n P c q 3 \/ rsafe_corners n P c q 2) /\
     forall j d' q', (j < i)%nat -> ds !! j = Some d' -> rhole n P p d' q' -> ~ rattacked n P c q'.
  Proof using All.
    induction 1 as [|d q ds qs Hd _ IH]; [split; [discriminate|intros (i & d & q & F & _); rewrite lookup_nil in F; discriminate]|].
    assert (Hh : ris_emp n P q = true <-> rhole n P p d q).
    { unfold ris_emp, rhole. rewrite andb_true_iff, rvalid_on. split.
      - intros [H1 H2]. split; [exact H1|]. split; [apply (Hd q H1); reflexivity|]. destruct (P q); [discriminate|reflexivity].
      - intros (H1 & _ & H2). rewrite H2. auto. }
    assert (Hu : forall q', rhole n P p d q' -> q' = q) by (intros q' (H1 & H2 & _); apply (Hd q' H1), H2).
    cbn [List.filter]. destruct (ris_emp n P q) eqn:Ee.
    - pose proof (proj1 Hh eq_refl) as Hq. pose proof (rattacked_iff q (proj1 Hq)) as HA. cbn [rcorner_scan].
      destruct (renemy_near n P c q).
      + split; [discriminate|]. intros (i & d' & q' & Hi & Hh' & Hna & _ & Hb). exfalso. destruct i as [|i].
        * injection Hi as <-. rewrite (Hu q' Hh') in Hna. apply Hna, HA. reflexivity.
        * apply (Hb 0%nat d q ltac:(lia) eq_refl Hq), HA. reflexivity.
      + pose proof (rsafe_corners_iff q 3 (proj1 Hq)) as S3. pose proof (rsafe_corners_iff q 2 (proj1 Hq)) as S2.
        assert (HNA : ~ rattacked n P c q) by (rewrite <- HA; discriminate).
        destruct ((rgood_corners n P c q =? 3)%nat || (rgood_corners n P c q =? 2)%nat) eqn:Eg.
        * split; [intros _|reflexivity]. exists 0%nat, d, q. split; [reflexivity|]. split; [exact Hq|]. split; [exact HNA|]. split; [|lia].
          rewrite S3, S2. apply orb_true_iff in Eg as [Eg|Eg]; apply Nat.eqb_eq in Eg; auto.
        * apply orb_false_iff in Eg as [E3 E2]. apply Nat.eqb_neq in E3, E2. rewrite IH. split.
          -- intros (i & d' & q' & Hi & K1 & K2 & K3 & K4). exists (S i), d', q'. split; [exact Hi|]. do 3 (split; [assumption|]).
             intros [|j] d2 q2 Hj Hl Hh2; [injection Hl as <-; rewrite (Hu q2 Hh2); exact HNA|]. apply (K4 j d2 q2 ltac:(lia) Hl Hh2).
          -- intros (i & d' & q' & Hi & K1 & K2 & K3 & K4). destruct i as [|i].
             ++ injection Hi as <-. rewrite (Hu q' K1), S3, S2 in K3. tauto.
             ++ exists i, d', q'. split; [exact Hi|]. do 3 (split; [assumption|]). intros j d2 q2 Hj Hl. apply (K4 (S j) d2 q2); [lia|exact Hl].
    - rewrite IH. assert (Hno : forall q', ~ rhole n P p d q') by (intros q' F; pose proof F as F'; rewrite (Hu q' F) in F'; apply Hh in F'; discriminate). split.
      + intros (i & d' & q' & Hi & K1 & K2 & K3 & K4). exists (S i), d', q'. split; [exact Hi|]. do 3 (split; [assumption|]).
        intros [|j] d2 q2 Hj Hl Hh2; [injection Hl as <-; destruct (Hno _ Hh2)|]. apply (K4 j d2 q2 ltac:(lia) Hl Hh2).
      + intros (i & d' & q' & Hi & K1 & K2 & K3 & K4). destruct i as [|i]; [injection Hi as <-; destruct (Hno _ K1)|].
        exists i, d', q'. split; [exact Hi|]. do 3 (split; [assumption|]). intros j d2 q2 Hj Hl. apply (K4 (S j) d2 q2); [lia|exact Hl].
  Qed.

  Lemma reye_iff p : ron n p -> reye n P c p = true <-> reye_shape n P c p.
  Proof using All.
    intros Hp. unfold reye, reye_shape. rewrite <- (rscan_iff p directions (corner_list p) (rcorners_stand n p Hn Hp)).
    rewrite !rsafe_corners_iff by exact Hp. rewrite !andb_true_iff, orb_true_iff, andb_true_iff, orb_true_iff, !Nat.eqb_eq, forallb_forall.
    assert (E1 : is_none (P p) = true <-> P p = None) by (destruct (P p); split; intros F; try discriminate; reflexivity).
    assert (E2 : (forall q, In q (rnbrs n p) -> mcolor_eqb (P q) (Some c) = true) <-> forall q, ron n q -> adj p q -> P q = Some c).
    { split.
      - intros H q Hq Ha. destruct (mcolor_eqb_spec (P q) (Some c)) as [|F]; [assumption|].
        exfalso. pose proof (H q) as K. rewrite <- elem_of_list_In, (relem_of_nbrs n p q Hp) in K. specialize (K (conj Hq Ha)).
        destruct (mcolor_eqb_spec (P q) (Some c)); [contradiction|discriminate].
      - intros H q Hq. apply elem_of_list_In, (relem_of_nbrs n p q Hp) in Hq as [Hq Ha]. rewrite (H q Hq Ha). cbn. apply color_eqb_refl. }
    rewrite E1, E2. tauto.
  Qed.
End Eye.
