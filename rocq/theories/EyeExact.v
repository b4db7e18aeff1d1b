(** [check_eye] recognises exactly the shapes of [EyeSpec.v]. *)
From stdpp Require Import relations sorting.
From Verif Require Import EyeSpec Game MonadFacts Struct Push Inv Bridge GameFacts BoardFacts EyeFacts Observe.
From Coq Require Import Lia ZArith.

Local Notation length := Datatypes.length.

(** [q] is the point, if any, in direction [d] *)
Definition stands (n : nat) (p : coord) (d : Z * Z) (q : coord) : Prop :=
  forall q', on n q' -> (corner p d q' <-> q' = q).

Lemma corners_stand n p : (n <= 19)%nat -> on n p -> Forall2 (stands n p) directions (corner_list p).
Proof.
  destruct p as [x y]. intros Hn [Hx Hy]. cbn [fst snd] in *. unfold directions, corner_list.
  assert (Hp : forall u v : nat, (u < n)%nat -> Z.of_nat u = (Z.of_nat v + -1)%Z <-> u = u8_wrapping_pred v) by (intros u [|v] Hu; cbn [u8_wrapping_pred]; lia).
  assert (Hs : forall u v : nat, Z.of_nat u = (Z.of_nat v + 1)%Z <-> u = S v) by (intros; lia).
  apply Forall2_cons_2; [|apply Forall2_cons_2; [|apply Forall2_cons_2; [|apply Forall2_cons_2; [|apply Forall2_nil_2]]]]; intros [a b] [Ha Hb]; cbn [fst snd] in *; unfold corner; cbn [fst snd];
    rewrite ?(Hs a x), ?(Hs b y), ?(Hp a x Ha), ?(Hp b y Hb); (split; [intros [-> ->]; reflexivity|intros [= -> ->]; auto]).
Qed.

Lemma NoDup_directions : NoDup directions.
Proof. unfold directions. repeat (apply NoDup_cons; split; [rewrite ?elem_of_cons, elem_of_nil; intros F; repeat destruct F as [F|F]; try discriminate; contradiction|]). apply NoDup_nil_2. Qed.

Section Eye.
  Variables (n : nat) (P : pos) (c : color).
  Hypothesis Hn : (n <= 19)%nat.

  Definition good (q : coord) : bool := is_off n q || is_ally n P c q.

  Lemma good_count l : (length (List.filter (is_ally n P c) l) + length (List.filter (is_off n) l) = length (List.filter good l))%nat.
  Proof using All.
    induction l as [|q l IH]; [reflexivity|]. cbn [List.filter]. change (good q) with (is_off n q || is_ally n P c q).
    destruct (is_off n q) eqn:Eo, (is_ally n P c q) eqn:Ea; cbn [orb Datatypes.length]; try lia.
    unfold is_off in Eo. unfold is_ally in Ea. destruct (is_coord_valid (n, n) q); discriminate.
  Qed.

  Lemma good_safe p d q : stands n p d q -> good q = true <-> safe_corner n P c p d.
  Proof using All.
    intros H. unfold good, is_off, is_ally. destruct (is_coord_valid (n, n) q) eqn:E; cbn [negb orb andb].
    - apply valid_on in E. split.
      + intros K q' Hq' Hc. apply (H q' Hq') in Hc as ->. destruct (mcolor_eqb_spec (P q) (Some c)); [assumption|discriminate].
      + intros K. rewrite (K q E); [cbn; apply color_eqb_refl|]. apply (H q E). reflexivity.
    - split; [|reflexivity]. intros _ q' Hq' Hc. apply (H q' Hq') in Hc as ->. apply valid_on in Hq'. congruence.
  Qed.

  Lemma safe_list p ds qs : Forall2 (stands n p) ds qs -> NoDup ds ->
    exists l, NoDup l /\ length l = length (List.filter good qs) /\ forall d, d ∈ l <-> d ∈ ds /\ safe_corner n P c p d.
  Proof using All.
    induction 1 as [|d q ds qs Hd _ IH]; intros Nd.
    { exists []. split; [apply NoDup_nil_2|]. split; [reflexivity|]. intros d. split; [intros F; apply elem_of_nil in F; contradiction|intros [F _]; exact F]. }
    apply NoDup_cons in Nd as [Hnot Nd]. destruct (IH Nd) as (l & N1 & L1 & H1). cbn [List.filter].
    pose proof (good_safe p d q Hd) as K. destruct (good q).
    - exists (d :: l). split; [apply NoDup_cons; split; [rewrite H1; tauto|exact N1]|]. split; [cbn [Datatypes.length]; lia|].
      intros d'. rewrite !elem_of_cons, H1. split; [intros [->|]; tauto|intros [[->|] ?]; auto].
    - exists l. split; [exact N1|]. split; [exact L1|]. intros d'. rewrite elem_of_cons, H1. split; [tauto|].
      intros [[->|Hd'] Hs]; [apply K in Hs; discriminate|auto].
  Qed.

  Lemma safe_corners_iff p k : on n p -> safe_corners n P c p k <-> good_corners n P c p = k.
  Proof using All.
    intros Hp. unfold good_corners. rewrite good_count.
    destruct (safe_list p directions (corner_list p) (corners_stand n p Hn Hp) NoDup_directions) as (l & N1 & L1 & H1). split.
    - intros (l' & N2 & <- & H2). rewrite <- L1. apply Permutation_length, NoDup_Permutation; [exact N1|exact N2|]. intros d. rewrite H1, H2. reflexivity.
    - intros <-. exists l. auto.
  Qed.

  Lemma attacked_iff q : on n q -> enemy_near n P c q = true <-> attacked n P c q.
  Proof using All.
    intros Hq. unfold enemy_near. rewrite existsb_spec. split.
    - intros (t & Ht & E). apply (elem_of_nbrs n q t Hq) in Ht as [Ht Ha]. exists t. destruct (mcolor_eqb_spec (P t) (Some (opp c))); [auto|discriminate].
    - intros (t & Ht & Ha & E). exists t. split; [apply (elem_of_nbrs n q t Hq); auto|]. rewrite E. cbn. apply color_eqb_refl.
  Qed.

  Lemma scan_iff p ds qs : Forall2 (stands n p) ds qs ->
    corner_scan n P c (List.filter (is_emp n P) qs) = true <->
    exists i d q, ds !! i = Some d /\ hole n P p d q /\ ~ attacked n P c q /\
     (safe_corners n P c q 3 \/ safe_corners n P c q 2) /\
     forall j d' q', (j < i)%nat -> ds !! j = Some d' -> hole n P p d' q' -> ~ attacked n P c q'.
  Proof using All.
    induction 1 as [|d q ds qs Hd _ IH]; [split; [discriminate|intros (i & d & q & F & _); rewrite lookup_nil in F; discriminate]|].
    assert (Hh : is_emp n P q = true <-> hole n P p d q).
    { unfold is_emp, hole. rewrite andb_true_iff, valid_on. split.
      - intros [H1 H2]. split; [exact H1|]. split; [apply (Hd q H1); reflexivity|]. destruct (P q); [discriminate|reflexivity].
      - intros (H1 & _ & H2). rewrite H2. auto. }
    assert (Hu : forall q', hole n P p d q' -> q' = q) by (intros q' (H1 & H2 & _); apply (Hd q' H1), H2).
    cbn [List.filter]. destruct (is_emp n P q) eqn:Ee.
    - pose proof (proj1 Hh eq_refl) as Hq. pose proof (attacked_iff q (proj1 Hq)) as HA. cbn [corner_scan].
      destruct (enemy_near n P c q).
      + split; [discriminate|]. intros (i & d' & q' & Hi & Hh' & Hna & _ & Hb). exfalso. destruct i as [|i].
        * injection Hi as <-. rewrite (Hu q' Hh') in Hna. apply Hna, HA. reflexivity.
        * apply (Hb 0%nat d q ltac:(lia) eq_refl Hq), HA. reflexivity.
      + pose proof (safe_corners_iff q 3 (proj1 Hq)) as S3. pose proof (safe_corners_iff q 2 (proj1 Hq)) as S2.
        assert (HNA : ~ attacked n P c q) by (rewrite <- HA; discriminate).
        destruct ((good_corners n P c q =? 3)%nat || (good_corners n P c q =? 2)%nat) eqn:Eg.
        * split; [intros _|reflexivity]. exists 0%nat, d, q. split; [reflexivity|]. split; [exact Hq|]. split; [exact HNA|]. split; [|lia].
          rewrite S3, S2. apply orb_true_iff in Eg as [Eg|Eg]; apply Nat.eqb_eq in Eg; auto.
        * apply orb_false_iff in Eg as [E3 E2]. apply Nat.eqb_neq in E3, E2. rewrite IH. split.
          -- intros (i & d' & q' & Hi & K1 & K2 & K3 & K4). exists (S i), d', q'. split; [exact Hi|]. do 3 (split; [assumption|]).
             intros [|j] d2 q2 Hj Hl Hh2; [injection Hl as <-; rewrite (Hu q2 Hh2); exact HNA|]. apply (K4 j d2 q2 ltac:(lia) Hl Hh2).
          -- intros (i & d' & q' & Hi & K1 & K2 & K3 & K4). destruct i as [|i].
             ++ injection Hi as <-. rewrite (Hu q' K1), S3, S2 in K3. tauto.
             ++ exists i, d', q'. split; [exact Hi|]. do 3 (split; [assumption|]). intros j d2 q2 Hj Hl. apply (K4 (S j) d2 q2); [lia|exact Hl].
    - rewrite IH. assert (Hno : forall q', ~ hole n P p d q') by (intros q' F; pose proof F as F'; rewrite (Hu q' F) in F'; apply Hh in F'; discriminate). split.
      + intros (i & d' & q' & Hi & K1 & K2 & K3 & K4). exists (S i), d', q'. split; [exact Hi|]. do 3 (split; [assumption|]).
        intros [|j] d2 q2 Hj Hl Hh2; [injection Hl as <-; destruct (Hno _ Hh2)|]. apply (K4 j d2 q2 ltac:(lia) Hl Hh2).
      + intros (i & d' & q' & Hi & K1 & K2 & K3 & K4). destruct i as [|i]; [injection Hi as <-; destruct (Hno _ K1)|].
        exists i, d', q'. split; [exact Hi|]. do 3 (split; [assumption|]). intros j d2 q2 Hj Hl. apply (K4 (S j) d2 q2); [lia|exact Hl].
  Qed.

  Lemma eye_iff p : on n p -> eye n P c p = true <-> eye_shape n P c p.
  Proof using All.
    intros Hp. unfold eye, eye_shape. rewrite <- (scan_iff p directions (corner_list p) (corners_stand n p Hn Hp)).
    rewrite !safe_corners_iff by exact Hp. rewrite !andb_true_iff, orb_true_iff, andb_true_iff, orb_true_iff, !Nat.eqb_eq, forallb_forall.
    assert (E1 : is_none (P p) = true <-> P p = None) by (destruct (P p); split; intros F; try discriminate; reflexivity).
    assert (E2 : (forall q, In q (nbrs n p) -> mcolor_eqb (P q) (Some c) = true) <-> forall q, on n q -> adj p q -> P q = Some c).
    { split.
      - intros H q Hq Ha. destruct (mcolor_eqb_spec (P q) (Some c)) as [|F]; [assumption|].
        exfalso. pose proof (H q) as K. rewrite <- elem_of_list_In, (elem_of_nbrs n p q Hp) in K. specialize (K (conj Hq Ha)).
        destruct (mcolor_eqb_spec (P q) (Some c)); [contradiction|discriminate].
      - intros H q Hq. apply elem_of_list_In, (elem_of_nbrs n p q Hp) in Hq as [Hq Ha]. rewrite (H q Hq Ha). cbn. apply color_eqb_refl. }
    rewrite E1, E2. tauto.
  Qed.
End Eye.

Theorem claim_eye_exact dbg n b w g p c : greach dbg n b w g -> on n p ->
  exists v, check_eye dbg g (p, c) = Ok v /\ (v = true <-> eye_shape n (position g) c p).
Proof.
  intros HG Hp. pose proof (gi_wf _ _ _ _ (greach_inv _ _ _ _ _ HG)) as W. exists (eye n (pos_of (gm_goban g)) c p).
  split; [apply check_eye_ok; assumption|]. apply eye_iff; [|exact Hp]. pose proof (wf_n n _ W). lia.
Qed.
