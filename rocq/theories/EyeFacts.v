(** The eye check, and the checks put together. *)
From stdpp Require Import relations sorting.
From Verif Require Import MonadFacts Spec Game BitsetFacts CoordFacts Struct Push Inv Remove Capture Bridge GameFacts RulesFacts KoFacts BoardFacts CheckFacts.
From Coq Require Import Lia.

Definition corner_list (p : coord) : list coord :=
  let (x1, x2) := p in
  [ (S x1, S x2); (u8_wrapping_pred x1, u8_wrapping_pred x2);
    (S x1, u8_wrapping_pred x2); (u8_wrapping_pred x1, S x2) ].

(** coordinates whose neighbours are computed without overflow of u8 *)
Definition small_coord (p : coord) : Prop := (fst p < 255 /\ snd p < 255)%nat.

Lemma on_small n p : (n <= 19)%nat -> on n p -> small_coord p.
Proof. intros Hn [Hx Hy]. unfold small_coord. lia. Qed.

Lemma corners_ok dbg p : small_coord p -> corner_points dbg p = Ok (corner_list p).
Proof.
  destruct p as [x y]. intros [Hx Hy]. cbn [fst snd] in *. unfold corner_points, u8_add.
  replace (x + 1 <? 256)%nat with true by (symmetry; apply Nat.ltb_lt; lia).
  replace (y + 1 <? 256)%nat with true by (symmetry; apply Nat.ltb_lt; lia).
  cbn [bind corner_list]. rewrite !(Nat.add_comm _ 1). reflexivity.
Qed.

Lemma corners_diag n p q : (n <= 19)%nat -> on n p -> on n q -> q ∈ corner_list p <-> diag p q.
Proof.
  destruct p as [x y], q as [a b]. unfold on, diag. cbn [fst snd]. intros Hn [Hx Hy] [Ha Hb].
  unfold corner_list. rewrite !elem_of_cons, elem_of_nil.
  assert (Hp : forall u v : nat, (u < n)%nat -> u = u8_wrapping_pred v <-> v = S u).
  { intros u v Hu. destruct v; cbn [u8_wrapping_pred]; lia. }
  assert (E : forall u v : nat, (a, b) = (u, v) <-> a = u /\ b = v) by (intros u v; split; [intros [= -> ->]; tauto|intros [-> ->]; reflexivity]).
  rewrite !E, !(Hp a x Ha), !(Hp b y Hb). lia.
Qed.

Lemma valid_on n p : is_coord_valid (n, n) p = true <-> on n p.
Proof. unfold is_coord_valid, on. cbn [fst snd]. rewrite andb_true_iff, !Nat.ltb_lt. reflexivity. Qed.

Definition is_ally (n : nat) (P : pos) (c : color) (q : coord) : bool := is_coord_valid (n, n) q && mcolor_eqb (P q) (Some c).
Definition is_off (n : nat) (q : coord) : bool := negb (is_coord_valid (n, n) q).
Definition is_emp (n : nat) (P : pos) (q : coord) : bool := is_coord_valid (n, n) q && is_none (P q).

Lemma helper_small dbg n g p c : wf n (gm_goban g) -> small_coord p ->
  helper_check_eye dbg g p c =
  Ok (List.filter (is_ally n (pos_of (gm_goban g)) c) (corner_list p),
      List.filter (is_off n) (corner_list p),
      List.filter (is_emp n (pos_of (gm_goban g))) (corner_list p)).
Proof.
  intros W Hp. pose proof (wf_n n _ W) as Hn. unfold helper_check_eye. rewrite (corners_ok dbg p Hp). cbn [bind].
  rewrite (wf_size n _ W).
  assert (H : forall l (ally off emp : list coord), (length ally + length l <= 4)%nat -> (length off + length l <= 4)%nat -> (length emp + length l <= 4)%nat ->
    foldM (fun '(ally, off, emp) q =>
           if is_coord_valid (n, n) q then
             let! cc := get_color (gm_goban g) q in
             match cc with
             | None => let! emp' := av_push 4 emp q in Ok (ally, off, emp')
             | Some c' =>
                 if color_eqb c' c then let! ally' := av_push 4 ally q in Ok (ally', off, emp)
                 else Ok (ally, off, emp)
             end
           else let! off' := av_push 4 off q in Ok (ally, off', emp)) l (ally, off, emp) =
    Ok (ally ++ List.filter (is_ally n (pos_of (gm_goban g)) c) l, off ++ List.filter (is_off n) l,
        emp ++ List.filter (is_emp n (pos_of (gm_goban g))) l)).
  { induction l as [|q l IH]; intros ally off emp H1 H2 H3.
    - cbn. rewrite !app_nil_r. reflexivity.
    - cbn [foldM List.filter length] in *. unfold is_ally at 1, is_off at 1, is_emp at 1.
      destruct (is_coord_valid (n, n) q) eqn:Ev; cbn [andb negb].
      + apply valid_on in Ev. rewrite (get_color_pos n _ q W Ev). cbn [bind].
        destruct (pos_of (gm_goban g) q) as [c'|]; cbn [mcolor_eqb is_none].
        * destruct (color_eqb c' c).
          -- rewrite av_push_ok by lia. cbn [bind]. rewrite IH by (rewrite ?app_length; cbn; lia). rewrite <- app_assoc. reflexivity.
          -- cbn [bind]. rewrite IH by lia. reflexivity.
        * rewrite av_push_ok by lia. cbn [bind]. rewrite IH by (rewrite ?app_length; cbn; lia). rewrite <- app_assoc. reflexivity.
      + rewrite av_push_ok by lia. cbn [bind]. rewrite IH by (rewrite ?app_length; cbn; lia). rewrite <- app_assoc. reflexivity. }
  rewrite H; [reflexivity|destruct p; cbn; lia..].
Qed.

Lemma helper_ok dbg n g p c : wf n (gm_goban g) -> on n p ->
  helper_check_eye dbg g p c =
  Ok (List.filter (is_ally n (pos_of (gm_goban g)) c) (corner_list p),
      List.filter (is_off n) (corner_list p),
      List.filter (is_emp n (pos_of (gm_goban g))) (corner_list p)).
Proof. intros W Hp. apply helper_small; [exact W|]. apply (on_small n p); [|exact Hp]. pose proof (wf_n n _ W). lia. Qed.

Lemma connected_stones_ok dbg n g p : wf n g -> on n p ->
  exists l, get_connected_stones dbg g p = Ok l /\ forall q c, (q, c) ∈ l <-> on n q /\ adj p q /\ pos_of g q = Some c.
Proof.
  intros W Hp. unfold get_connected_stones. rewrite (connected_points_ok dbg n g p W Hp). cbn [bind].
  eexists. split; [reflexivity|]. intros q c. rewrite elem_of_list_omap. split.
  - intros ([q' c'] & H & E). apply elem_of_lmap in H as (q2 & E2 & H2). injection E2 as -> ->. cbn [fst snd] in E.
    destruct (pos_of g q2) as [x|] eqn:Ex; [|discriminate]. injection E as -> ->.
    apply (elem_of_nbrs n p q Hp) in H2. tauto.
  - intros (H1 & H2 & H3). exists (q, pos_of g q). split.
    + apply elem_of_lmap. exists q. split; [reflexivity|]. apply (elem_of_nbrs n p q Hp). tauto.
    + cbn [fst snd]. rewrite H3. reflexivity.
Qed.

(** How many of the four corners of [p] are off the board or of colour [c]. *)
Definition good_corners (n : nat) (P : pos) (c : color) (p : coord) : nat :=
  (length (List.filter (is_ally n P c) (corner_list p)) + length (List.filter (is_off n) (corner_list p)))%nat.

(** The loop over the empty corners, as a function of the position. *)
Definition enemy_near (n : nat) (P : pos) (c : color) (q : coord) : bool :=
  existsb (fun t => mcolor_eqb (P t) (Some (opp c))) (nbrs n q).
Fixpoint corner_scan (n : nat) (P : pos) (c : color) (l : list coord) : bool :=
  match l with
  | [] => false
  | q :: t =>
      if enemy_near n P c q then false
      else if (good_corners n P c q =? 3)%nat || (good_corners n P c q =? 2)%nat then true
      else corner_scan n P c t
  end.

(** The eye check as a function of the position. *)
Definition eye (n : nat) (P : pos) (c : color) (p : coord) : bool :=
  is_none (P p) && forallb (fun q => mcolor_eqb (P q) (Some c)) (nbrs n p) &&
  ((good_corners n P c p =? 4)%nat ||
   (((good_corners n P c p =? 3)%nat || (good_corners n P c p =? 2)%nat) &&
    corner_scan n P c (List.filter (is_emp n P) (corner_list p)))).

Lemma check_eye_corners_ok dbg n g c l : wf n (gm_goban g) -> (forall q, q ∈ l -> on n q) ->
  check_eye_corners dbg g c l = Ok (corner_scan n (pos_of (gm_goban g)) c l).
Proof.
  intros W. induction l as [|q l IH]; intros Hl; [reflexivity|]. cbn [check_eye_corners corner_scan].
  pose proof (Hl q (elem_of_list_here _ _)) as Hq.
  destruct (connected_stones_ok dbg n _ q W Hq) as (st & -> & Hst). cbn [bind].
  replace (existsb (fun s : stone => negb (color_eqb (snd s) c)) st) with (enemy_near n (pos_of (gm_goban g)) c q).
  - destruct (enemy_near n _ c q); [reflexivity|]. rewrite (helper_ok dbg n g q c W Hq). cbn [bind]. unfold good_corners.
    destruct (_ || _); [reflexivity|]. apply IH. intros q' Hq'. apply Hl. right. exact Hq'.
  - apply eq_true_iff_eq. unfold enemy_near. rewrite !existsb_spec. split.
    + intros (t & Ht & E). apply (elem_of_nbrs n q t Hq) in Ht as [Ht Ha].
      destruct (mcolor_eqb_spec (pos_of (gm_goban g) t) (Some (opp c))) as [E'|]; [|discriminate].
      exists (t, opp c). split; [apply Hst; tauto|]. cbn. destruct c; reflexivity.
    + intros ([t x] & Ht & E). apply Hst in Ht as (Ht & Ha & Hx). exists t. split; [apply (elem_of_nbrs n q t Hq); tauto|].
      cbn in E. rewrite Hx. destruct x, c; cbn in *; congruence.
Qed.

Lemma check_eye_ok dbg n g p c : wf n (gm_goban g) -> on n p ->
  check_eye dbg g (p, c) = Ok (eye n (pos_of (gm_goban g)) c p).
Proof.
  intros W Hp. unfold check_eye, eye. rewrite (get_color_pos n _ p W Hp). cbn [bind].
  destruct (pos_of (gm_goban g) p) as [x|]; [reflexivity|]. cbn [is_none andb].
  rewrite (neighbors_ok dbg n _ p W Hp). cbn [bind].
  rewrite (anyM_ok _ (fun q => negb (mcolor_eqb (pos_of (gm_goban g) q) (Some c)))).
  2:{ intros q Hq. apply (elem_of_nbrs n p q Hp) in Hq as [Hq _]. rewrite (get_color_pos n _ q W Hq). reflexivity. }
  cbn [bind].
  replace (forallb (fun q => mcolor_eqb (pos_of (gm_goban g) q) (Some c)) (nbrs n p))
    with (negb (existsb (fun q => negb (mcolor_eqb (pos_of (gm_goban g) q) (Some c))) (nbrs n p))).
  2:{ induction (nbrs n p) as [|q l IH]; [reflexivity|]. cbn [existsb forallb]. rewrite negb_orb, negb_involutive, IH. reflexivity. }
  destruct (existsb _ _); [reflexivity|]. cbn [negb andb]. rewrite (helper_ok dbg n g p c W Hp). cbn [bind].
  change (length (List.filter (is_ally n (pos_of (gm_goban g)) c) (corner_list p)) + length (List.filter (is_off n) (corner_list p)))%nat
    with (good_corners n (pos_of (gm_goban g)) c p).
  destruct (good_corners n _ c p =? 4)%nat; [reflexivity|]. cbn [orb].
  destruct (_ || _); [|reflexivity]. cbn [andb].
  apply check_eye_corners_ok; [exact W|]. intros q Hq. apply elem_of_lfilter in Hq as [_ Hq].
  apply andb_true_iff in Hq as [Hq _]. apply valid_on, Hq.
Qed.

Lemma eye_sound n P c p : on n p -> eye n P c p = true ->
  P p = None /\ forall q, on n q -> adj p q -> P q = Some c.
Proof.
  intros Hp E. unfold eye in E. apply andb_true_iff in E as [E _]. apply andb_true_iff in E as [E1 E2].
  split; [destruct (P p); [discriminate|reflexivity]|]. intros q Hq Ha. rewrite forallb_forall in E2.
  specialize (E2 q). rewrite <- elem_of_list_In in E2. specialize (E2 (proj2 (elem_of_nbrs n p q Hp) (conj Hq Ha))).
  destruct (mcolor_eqb_spec (P q) (Some c)); [assumption|discriminate].
Qed.

Lemma eye_complete n P c p : (n <= 19)%nat -> on n p -> P p = None -> (forall q, on n q -> adj p q -> P q = Some c) ->
  (forall q, on n q -> diag p q -> P q = Some c) -> eye n P c p = true.
Proof.
  intros Hn Hp He Ha Hd. unfold eye. rewrite He. cbn [is_none andb]. apply andb_true_iff. split.
  - apply forallb_forall. intros q Hq. apply elem_of_list_In, (elem_of_nbrs n p q Hp) in Hq as [H1 H2].
    rewrite (Ha q H1 H2). cbn. apply color_eqb_refl.
  - apply orb_true_iff. left. apply Nat.eqb_eq. unfold good_corners.
    rewrite <- (filter_split (fun _ => true)).
    + destruct p; reflexivity.
    + intros q Hq. unfold is_ally, is_off. destruct (is_coord_valid (n, n) q) eqn:Ev; [|reflexivity]. apply valid_on in Ev.
      rewrite (Hd q Ev); [cbn; rewrite color_eqb_refl; reflexivity|]. apply (corners_diag n p q Hn Hp Ev), Hq.
    + intros q _. unfold is_ally, is_off. destruct (is_coord_valid (n, n) q); cbn; [apply andb_false_r|reflexivity].
Qed.

(** ** All checks together *)

Lemma check_super_ko_total dbg n g p : wf n (gm_goban g) -> Forall (wf n) (gm_history g) ->
  on n p -> pos_of (gm_goban g) p = None -> (N.of_nat (length (chains (gm_goban g))) < 65535)%N ->
  exists v, check_super_ko dbg g (p, gm_turn g) = Ok v.
Proof.
  intros W Wh Hp He Hl. destruct (check_super_ko_ok dbg n g p W Wh Hp He) as [[_ H]|(v & E & _)]; [lia|eauto].
Qed.

(** [check_point_by] as a decision table. *)
Lemma check_point_by_ok dbg n g p flags : wf n (gm_goban g) -> Forall (wf n) (gm_history g) -> on n p ->
  (check_point_by dbg g p flags = Panic /\ (N.of_nat (length (chains (gm_goban g))) = 65535)%N /\
   flag_contains flags SUPERKO = true /\ check_super_ko dbg g (p, gm_turn g) = Panic) \/
  exists e, check_point_by dbg g p flags = Ok e /\
    match e with
    | Some EPointNotEmpty => pos_of (gm_goban g) p <> None
    | Some ESuicide => pos_of (gm_goban g) p = None /\ flag_contains flags SUICIDE = true /\ check_suicide dbg g (p, gm_turn g) = Ok true
    | Some EKo => pos_of (gm_goban g) p = None /\
        (flag_contains flags SUICIDE = true -> check_suicide dbg g (p, gm_turn g) = Ok false) /\
        (flag_contains flags KO = true /\ check_ko dbg g (p, gm_turn g) = Ok true \/
         flag_contains flags SUPERKO = true /\ check_super_ko dbg g (p, gm_turn g) = Ok true)
    | Some EFillEye => pos_of (gm_goban g) p = None /\
        (flag_contains flags SUICIDE = true -> check_suicide dbg g (p, gm_turn g) = Ok false) /\
        (flag_contains flags KO = true -> check_ko dbg g (p, gm_turn g) = Ok false) /\
        flag_contains flags FILLEYE = true /\ check_eye dbg g (p, gm_turn g) = Ok true
    | Some EGamePaused => False
    | None => pos_of (gm_goban g) p = None /\
        (flag_contains flags SUICIDE = true -> check_suicide dbg g (p, gm_turn g) = Ok false) /\
        (flag_contains flags KO = true -> check_ko dbg g (p, gm_turn g) = Ok false) /\
        (flag_contains flags FILLEYE = true -> check_eye dbg g (p, gm_turn g) = Ok false) /\
        (flag_contains flags SUPERKO = true -> check_super_ko dbg g (p, gm_turn g) = Ok false)
    end.
Proof.
  intros W Wh Hp. unfold check_point_by. rewrite (get_color_pos n _ p W Hp). cbn [bind].
  destruct (pos_of (gm_goban g) p) as [x|] eqn:He; [right; exists (Some EPointNotEmpty); split; [reflexivity|discriminate]|].
  destruct (check_suicide_ok dbg n g p (gm_turn g) W Hp He) as (vs & Es & _). rewrite Es.
  destruct (check_ko_ok dbg n g p (gm_turn g) W Hp He) as (vk & Ek & _). rewrite Ek.
  rewrite (check_eye_ok dbg n g p (gm_turn g) W Hp). set (ve := eye _ _ _ _).
  assert (HS : check_super_ko dbg g (p, gm_turn g) = Panic /\ (N.of_nat (length (chains (gm_goban g))) = 65535)%N \/
               exists v, check_super_ko dbg g (p, gm_turn g) = Ok v).
  { destruct (check_super_ko_ok dbg n g p W Wh Hp He) as [H|(v & E & _)]; eauto. }
  destruct (flag_contains flags SUICIDE); destruct (flag_contains flags KO); destruct (flag_contains flags FILLEYE);
  destruct (flag_contains flags SUPERKO); destruct vs; destruct vk; destruct ve; cbn [bind];
  try (right; eexists; split; [reflexivity|]; cbn; intuition congruence);
  (destruct HS as [[ESK HL]|(vsk & ESK)]; rewrite ESK; cbn [bind];
   [left; repeat split; assumption|destruct vsk; right; eexists; (split; [reflexivity|]); cbn; intuition congruence]).
Qed.
