(** Flood fill and territories. *)
From stdpp Require Import relations.
From Verif Require Import MonadFacts Spec Reach Territory BitsetFacts CoordFacts Struct Push Inv Remove Capture Bridge GameFacts RulesFacts BoardFacts.
From Coq Require Import Lia.

Lemma point_eqb_eq (a b : point) : point_eqb a b = true <-> a = b.
Proof.
  destruct a as [a x], b as [b y]. unfold point_eqb. cbn [fst snd]. rewrite andb_true_iff, coord_eqb_eq.
  destruct (mcolor_eqb_spec x y) as [->|H]; split.
  - intros [-> _]. reflexivity.
  - intros [= ->]. tauto.
  - intros [_ H']. discriminate.
  - intros [= -> ->]. contradiction.
Qed.

Lemma set_contains_spec s p : set_contains s p = true <-> p ∈ s.
Proof.
  unfold set_contains. rewrite existsb_spec. split.
  - intros (x & Hx & E). apply point_eqb_eq in E. subst x. exact Hx.
  - intros H. exists p. split; [exact H|]. apply point_eqb_eq. reflexivity.
Qed.

Lemma set_insert_spec s p x : x ∈ set_insert s p <-> x ∈ s \/ x = p.
Proof.
  unfold set_insert. destruct (set_contains s p) eqn:E.
  - apply set_contains_spec in E. split; [tauto|intros [H| ->]; assumption].
  - rewrite elem_of_app, elem_of_list_singleton. reflexivity.
Qed.

Lemma set_insert_NoDup s p : NoDup s -> NoDup (set_insert s p).
Proof.
  intros H. unfold set_insert. destruct (set_contains s p) eqn:E; [exact H|].
  apply NoDup_app. split; [exact H|]. split; [|apply NoDup_singleton].
  intros x Hx Hp. apply elem_of_list_singleton in Hp. subst x. apply set_contains_spec in Hx. congruence.
Qed.

Lemma set_insert_length s p : length (set_insert s p) = (if set_contains s p then length s else S (length s)).
Proof. unfold set_insert. destruct (set_contains s p); [reflexivity|]. rewrite app_length. cbn. lia. Qed.

Section Fill.
  Variables (dbg : bool) (n : nat) (g : goban) (p0 : coord).
  Hypothesis W : wf n g.
  Hypothesis Hp0 : on n p0.
  Let P := pos_of g.
  Let mc := P p0.

  Definition inside (x : point) : Prop := snd x = mc /\ connected n P p0 (fst x).

  Lemma inside_on x : inside x -> on n (fst x).
  Proof using Hp0. intros [_ H]. eapply connected_on; eassumption. Qed.

  Lemma inside_color x : inside x -> P (fst x) = mc.
  Proof. intros [_ H]. symmetry. apply (connected_same n P _ _ H). Qed.

  Lemma inside_step x q : inside x -> on n q -> adj (fst x) q -> P q = mc -> inside (q, mc).
  Proof using Hp0.
    intros Hx Hq Ha Hc. split; [reflexivity|]. cbn [fst]. eapply connected_trans; [apply Hx|]. apply rtc_once.
    split; [apply inside_on, Hx|]. split; [exact Hq|]. split; [exact Ha|]. rewrite (inside_color x Hx). congruence.
  Qed.

  Lemma inside_bound (E : list point) : NoDup E -> (forall x, x ∈ E -> inside x) -> (length E <= 361)%nat.
  Proof using W Hp0.
    intros Nd HE. transitivity (length (points n)).
    - replace (length E) with (length (E.*1)) by apply fmap_length. apply submseteq_length, NoDup_submseteq.
      + apply NoDup_fmap_in; [|exact Nd]. intros [a x] [b y] Ha Hb. cbn [fst]. intros <-.
        destruct (HE _ Ha) as [H1 _], (HE _ Hb) as [H2 _]. cbn [snd] in H1, H2. congruence.
      + intros q Hq. apply elem_of_list_fmap in Hq as (x & -> & Hx). apply elem_of_points, inside_on, HE, Hx.
    - rewrite points_length. apply sq_le, (wf_n n g W).
  Qed.

  Definition fill_measure (E S : list point) : nat :=
    (8 * (361 - length E) + length S +
     match S with s :: _ => if set_contains E s then 4 else 0 | [] => 0 end)%nat.

  Lemma explore_ok fuel : forall E S,
    (fill_measure E S < fuel)%nat ->
    NoDup E -> (forall x, x ∈ E -> inside x) -> (forall x, x ∈ S -> inside x) ->
    (forall x q, x ∈ E -> on n q -> adj (fst x) q -> P q = mc -> (q, mc) ∈ E \/ (q, mc) ∈ S) ->
    exists R, explore fuel dbg g mc E S = Ok R /\ NoDup R /\ (forall x, x ∈ R -> inside x) /\
      (forall x, x ∈ E -> x ∈ R) /\
      (forall x q, x ∈ R -> on n q -> adj (fst x) q -> P q = mc -> (q, mc) ∈ R).
  Proof using W Hp0.
    induction fuel as [|f IH]; intros E S Hf Nd HE HS Hcl; [lia|].
    cbn [explore]. destruct S as [|s rest].
    - exists E. split; [reflexivity|]. split; [exact Nd|]. split; [exact HE|]. split; [tauto|].
      intros x q Hx Hq Ha Hc. destruct (Hcl x q Hx Hq Ha Hc) as [H|H]; [exact H|]. apply elem_of_nil in H. destruct H.
    - assert (Is : inside s) by (apply HS; left). pose proof (inside_on s Is) as Hs.
      rewrite (connected_points_ok dbg n g (fst s) W Hs). cbn [bind].
      set (E' := set_insert E s).
      set (new := List.filter _ _).
      assert (Hnew : forall x, x ∈ new <-> x ∉ E' /\ snd x = mc /\ on n (fst x) /\ adj (fst s) (fst x) /\ P (fst x) = mc).
      { intros x. unfold new. rewrite elem_of_lfilter, elem_of_lmap, andb_true_iff, negb_true_iff.
        split.
        - intros ((q & -> & Hq) & Hc & He). cbn [fst snd] in *. apply (elem_of_nbrs n _ q Hs) in Hq as [Hq Ha].
          destruct (mcolor_eqb_spec (pos_of g q) mc) as [Hm|]; [|discriminate].
          split; [intros Hx; apply set_contains_spec in Hx; congruence|]. tauto.
        - intros (H1 & H2 & H3 & H4 & H5). destruct x as [q x]. cbn [fst snd] in *. split; [|split].
          + exists q. split; [f_equal; unfold P in H5; congruence|]. apply (elem_of_nbrs n _ q Hs). tauto.
          + rewrite H2. destruct (mcolor_eqb_spec mc mc); congruence.
          + destruct (set_contains E' (q, x)) eqn:Ec; [|reflexivity]. apply set_contains_spec in Ec. contradiction. }
      assert (Hlen : (length new <= 4)%nat).
      { unfold new. pose proof (lfilter_length (fun p : point => mcolor_eqb (snd p) mc && negb (set_contains E' p))
                                   (List.map (fun q => (q, pos_of g q)) (nbrs n (fst s)))) as H.
        rewrite map_length in H. pose proof (nbrs_length n (fst s)). unfold point in *. lia. }
      assert (NdE' : NoDup E') by apply set_insert_NoDup, Nd.
      assert (HE' : forall x, x ∈ E' -> inside x).
      { intros x Hx. apply set_insert_spec in Hx as [Hx| ->]; [apply HE, Hx|exact Is]. }
      destruct (IH E' (rev new ++ rest)) as (R & ER & NR & IR & SR & CR).
      + pose proof (inside_bound E' NdE' HE') as Hb. pose proof (set_insert_length E s) as Hl. fold E' in Hl.
        unfold fill_measure in *. cbn [length] in Hf. rewrite app_length, rev_length.
        destruct (rev new) as [|y rn] eqn:Er.
        * apply (f_equal (@length point)) in Er. rewrite rev_length in Er. cbn [length] in Er. cbn [app].
          assert (match rest with [] => 0 | s0 :: _ => if set_contains E' s0 then 4 else 0 end <= 4)%nat.
          { destruct rest as [|z rest']; [lia|]. destruct (set_contains E' z); lia. }
          unfold point in *. destruct (set_contains E s); lia.
        * assert (Hy : set_contains E' y = false).
          { destruct (set_contains E' y) eqn:Ey; [|reflexivity]. apply set_contains_spec in Ey.
            assert (Hyn : y ∈ new) by (apply elem_of_list_In, in_rev; rewrite Er; left; reflexivity).
            apply Hnew in Hyn. tauto. }
          cbn [app]. rewrite Hy. unfold point in *. destruct (set_contains E s); lia.
      + exact NdE'.
      + exact HE'.
      + intros x Hx. apply elem_of_app in Hx as [Hx|Hx]; [|apply HS; right; exact Hx].
        apply elem_of_list_In, in_rev, elem_of_list_In, Hnew in Hx as (_ & H2 & H3 & H4 & H5).
        destruct x as [q x]. cbn [fst snd] in *. subst x. apply (inside_step s); assumption.
      + intros x q Hx Hq Ha Hc. destruct (set_contains E' (q, mc)) eqn:Ec; [left; apply set_contains_spec, Ec|].
        assert (Hn : (q, mc) ∉ E') by (intros H; apply set_contains_spec in H; congruence).
        right. apply elem_of_app. apply set_insert_spec in Hx as [Hx| ->].
        * destruct (Hcl x q Hx Hq Ha Hc) as [H|H]; [exfalso; apply Hn, set_insert_spec; tauto|].
          apply elem_of_cons in H as [H|H]; [exfalso; apply Hn, set_insert_spec; tauto|]. tauto.
        * left. apply elem_of_list_In. apply -> in_rev. apply elem_of_list_In, Hnew. cbn [fst snd]. tauto.
      + exists R. split; [exact ER|]. split; [exact NR|]. split; [exact IR|]. split; [|exact CR].
        intros x Hx. apply SR, set_insert_spec. tauto.
  Qed.

  Lemma group_from_point_ok :
    exists R, get_group_from_point dbg g (p0, mc) = Ok R /\ NoDup R /\
      forall x, x ∈ R <-> inside x.
  Proof using W Hp0.
    unfold get_group_from_point. cbn [fst snd]. rewrite (connected_points_ok dbg n g p0 W Hp0). cbn [bind].
    set (new := List.filter _ _).
    assert (Hnew : forall x, x ∈ new <-> snd x = mc /\ on n (fst x) /\ adj p0 (fst x) /\ P (fst x) = mc).
    { intros [q x]. unfold new. rewrite elem_of_lfilter, elem_of_lmap. cbn [fst snd]. split.
      - intros ((q' & [= -> ->] & Hq) & Hc). apply (elem_of_nbrs n p0 q' Hp0) in Hq as [Hq Ha].
        destruct (mcolor_eqb_spec (pos_of g q') mc) as [Hm|]; [|discriminate]. tauto.
      - intros (H2 & H3 & H4 & H5). split.
        + exists q. split; [f_equal; unfold P in H5; congruence|]. apply (elem_of_nbrs n p0 q Hp0). tauto.
        + rewrite H2. destruct (mcolor_eqb_spec mc mc); congruence. }
    assert (Hlen : (length new <= 4)%nat).
    { unfold new. pose proof (lfilter_length (fun p : point => mcolor_eqb (snd p) mc)
                                 (List.map (fun q => (q, pos_of g q)) (nbrs n p0))) as H.
      rewrite map_length in H. pose proof (nbrs_length n p0). unfold point in *. lia. }
    assert (I0 : inside (p0, mc)) by (split; [reflexivity|apply rtc_refl]).
    destruct (explore_ok explore_fuel [(p0, mc)] (rev new)) as (R & ER & NR & IR & SR & CR).
    - unfold fill_measure. rewrite rev_length. cbn [length]. change explore_fuel with 3000%nat.
      assert (match rev new with [] => 0 | s :: _ => if set_contains [(p0, mc)] s then 4 else 0 end <= 4)%nat.
      { destruct (rev new) as [|z l]; [lia|]. destruct (set_contains [(p0, mc)] z); lia. }
      unfold point in *. lia.
    - apply NoDup_singleton.
    - intros x Hx. apply elem_of_list_singleton in Hx. subst x. exact I0.
    - intros x Hx. apply elem_of_list_In, in_rev, elem_of_list_In, Hnew in Hx as (H2 & H3 & H4 & H5).
      destruct x as [q x]. cbn [fst snd] in *. subst x. apply (inside_step (p0, mc)); assumption.
    - intros x q Hx Hq Ha Hc. apply elem_of_list_singleton in Hx. subst x. cbn [fst] in Ha. right.
      apply elem_of_list_In. apply -> in_rev. apply elem_of_list_In, Hnew. cbn [fst snd]. tauto.
    - exists R. split; [exact ER|]. split; [exact NR|]. intros x. split; [apply IR|].
      intros [Hx1 Hx2]. destruct x as [q x]. cbn [fst snd] in *. subst x. revert q Hx2. unfold connected.
      refine (rtc_ind_r _ _ _ _).
      + apply SR. left.
      + intros a b Hab (Ha & Hb & Hadj & Hc) IHa. apply (CR (a, mc) b IHa Hb Hadj).
        rewrite <- Hc. symmetry. exact (connected_same n P p0 a Hab).
  Qed.
End Fill.

(** ** Regions of the empty points *)

Definition region_of (n : nat) (P : pos) (R : list point) : Prop :=
  exists p, on n p /\ P p = None /\ NoDup R /\ forall x, x ∈ R <-> snd x = None /\ connected n P p (fst x).

Lemma chains_from_stones_ok dbg n g l acc :
  wf n g -> (forall p, p ∈ l -> on n p /\ pos_of g p = None) ->
  NoDup (List.concat acc) -> Forall (region_of n (pos_of g)) acc ->
  exists acc', foldM (fun acc s =>
           if existsb (fun set => set_contains set s) acc then Ok acc
           else let! grp := get_group_from_point dbg g s in Ok (acc ++ [grp]))
        (List.map (fun p => (p, None)) l) acc = Ok acc' /\
    NoDup (List.concat acc') /\ Forall (region_of n (pos_of g)) acc' /\
    (forall x, x ∈ List.concat acc -> x ∈ List.concat acc') /\
    (forall p, p ∈ l -> (p, None) ∈ List.concat acc').
Proof.
  intros W. revert acc. induction l as [|p l IH]; intros acc Hl Nd HR.
  - exists acc. split; [reflexivity|]. split; [exact Nd|]. split; [exact HR|]. split; [tauto|].
    intros p Hp. apply elem_of_nil in Hp. destruct Hp.
  - cbn [List.map foldM]. destruct (Hl p) as [Hp He]; [left|].
    assert (Hmem : existsb (fun set => set_contains set (p, None)) acc = true <-> (p, None) ∈ List.concat acc).
    { rewrite existsb_spec. split.
      - intros (s & Hs & Hc). apply set_contains_spec in Hc. apply elem_of_list_In, in_concat. exists s.
        split; apply elem_of_list_In; assumption.
      - intros H. apply elem_of_list_In, in_concat in H as (s & Hs & Hc). exists s. split; [apply elem_of_list_In, Hs|].
        apply set_contains_spec, elem_of_list_In, Hc. }
    assert (Hl' : forall q, q ∈ l -> on n q /\ pos_of g q = None) by (intros q Hq; apply Hl; right; exact Hq).
    destruct (existsb _ acc) eqn:Ee.
    + cbn [bind]. destruct (IH acc Hl' Nd HR) as (acc' & E & H1 & H2 & H3 & H4). exists acc'.
      split; [exact E|]. split; [exact H1|]. split; [exact H2|]. split; [exact H3|].
      intros q Hq. apply elem_of_cons in Hq as [->|Hq]; [|apply H4, Hq]. apply H3, Hmem. reflexivity.
    + destruct (group_from_point_ok dbg n g p W Hp) as (R & ER & NR & HRR). rewrite He in ER. rewrite ER. cbn [bind].
      assert (HRR' : forall x, x ∈ R <-> snd x = None /\ connected n (pos_of g) p (fst x)).
      { intros x. rewrite HRR. unfold inside. rewrite He. reflexivity. }
      destruct (IH (acc ++ [R]) Hl') as (acc' & E & H1 & H2 & H3 & H4).
      * rewrite concat_app. cbn [List.concat]. rewrite app_nil_r. apply NoDup_app. split; [exact Nd|]. split; [|exact NR].
        intros x Hx HxR. apply HRR' in HxR as [Hx1 Hx2].
        enough (H : false = true) by discriminate. apply Hmem.
        apply elem_of_list_In, in_concat in Hx as (s & Hs & Hxs). apply elem_of_list_In, in_concat. exists s. split; [exact Hs|].
        rewrite Forall_forall in HR. destruct (HR s) as (p' & Hp' & He' & _ & Hs'); [apply elem_of_list_In, Hs|].
        apply elem_of_list_In, Hs'. split; [reflexivity|]. cbn [fst]. apply elem_of_list_In, Hs' in Hxs as [_ Hxs].
        eapply connected_trans; [exact Hxs|]. apply connected_sym, Hx2.
      * apply Forall_app. split; [exact HR|]. apply Forall_singleton. exists p. tauto.
      * exists acc'. split; [exact E|]. split; [exact H1|]. split; [exact H2|].
        assert (Happ : forall x, x ∈ List.concat acc \/ x ∈ R -> x ∈ List.concat acc').
        { intros x Hx. apply H3. rewrite concat_app. cbn [List.concat]. rewrite app_nil_r. apply elem_of_app, Hx. }
        split; [intros x Hx; apply Happ; tauto|].
        intros q Hq. apply elem_of_cons in Hq as [->|Hq]; [|apply H4, Hq]. apply Happ. right. apply HRR'.
        split; [reflexivity|]. apply rtc_refl.
Qed.

Definition sees (c : color) (pts : list point) : bool := existsb (fun p => mcolor_eqb (snd p) (Some c)) pts.

Lemma scan_points_ok pts : forall b w, b && w = false ->
  scan_points pts (b, w) =
  if (b || sees Black pts) && (w || sees White pts) then None else Some (b || sees Black pts, w || sees White pts).
Proof.
  induction pts as [|[q x] pts IH]; intros b w H; cbn [scan_points sees existsb snd fst].
  - rewrite !orb_false_r, H. reflexivity.
  - fold (sees Black pts) (sees White pts).
    destruct x as [[]|]; cbn [mcolor_eqb color_eqb fst snd orb].
    + (* White *)
      destruct b; cbn [andb orb]; [rewrite ?orb_true_r; cbn [andb]; reflexivity|].
      rewrite IH by reflexivity. rewrite ?orb_true_r. reflexivity.
    + destruct w; cbn [andb orb]; [rewrite ?orb_true_r; cbn [andb]; reflexivity|].
      rewrite IH by reflexivity. rewrite ?orb_true_r. reflexivity.
    + rewrite H. rewrite IH by exact H. reflexivity.
Qed.

Definition near (n : nat) (P : pos) (c : color) (grp : list point) : bool :=
  existsb (fun e : point => existsb (fun q => mcolor_eqb (P q) (Some c)) (nbrs n (fst e))) grp.

Lemma scan_group_ok dbg n g grp : wf n g -> (forall x, x ∈ grp -> on n (fst x)) -> forall b w, b && w = false ->
  scan_group dbg g grp (b, w) =
  Ok (let b' := b || near n (pos_of g) Black grp in let w' := w || near n (pos_of g) White grp in
      if b' && w' then None else Some (b', w')).
Proof.
  intros W. induction grp as [|e grp IH]; intros Hon b w H; cbn [scan_group].
  - cbn [near existsb]. rewrite !orb_false_r, H. reflexivity.
  - rewrite (connected_points_ok dbg n g (fst e) W) by (apply Hon; left). cbn [bind].
    rewrite scan_points_ok by exact H.
    assert (Hs : forall c, sees c (List.map (fun q => (q, pos_of g q)) (nbrs n (fst e))) =
                           existsb (fun q => mcolor_eqb (pos_of g q) (Some c)) (nbrs n (fst e))).
    { intros c. unfold sees. induction (nbrs n (fst e)) as [|q l IHl]; [reflexivity|]. cbn. rewrite IHl. reflexivity. }
    rewrite !Hs. unfold near. cbn [existsb]. fold (near n (pos_of g) Black grp) (near n (pos_of g) White grp).
    set (sb := existsb (fun q => mcolor_eqb (pos_of g q) (Some Black)) _). set (sw := existsb (fun q => mcolor_eqb (pos_of g q) (Some White)) _).
    destruct ((b || sb) && (w || sw)) eqn:Eb.
    + apply andb_true_iff in Eb as [E1 E2]. rewrite !orb_assoc, E1, E2. reflexivity.
    + rewrite (IH (fun x Hx => Hon x (elem_of_list_further _ _ _ Hx)) _ _ Eb). rewrite !orb_assoc. reflexivity.
Qed.

Lemma near_touches n P c grp p : on n p -> (forall x, x ∈ grp <-> snd x = None /\ connected n P p (fst x)) ->
  near n P c grp = true <-> touches n P p c.
Proof.
  intros Hp Hg. unfold near, touches. rewrite existsb_spec. split.
  - intros (e & He & H). apply existsb_spec in H as (r & Hr & Hc). apply Hg in He as [_ He].
    pose proof (connected_on n P _ _ Hp He) as Heo. apply (elem_of_nbrs n _ r Heo) in Hr as [Hr Ha].
    exists (fst e), r. split; [exact He|]. split; [exact Hr|]. split; [exact Ha|].
    destruct (mcolor_eqb_spec (P r) (Some c)); congruence.
  - intros (q & r & Hq & Hr & Ha & Hc). exists (q, None). split; [apply Hg; cbn; tauto|].
    apply existsb_spec. exists r. split; [apply (elem_of_nbrs n q r (connected_on n P _ _ Hp Hq)); tauto|].
    rewrite Hc. destruct (mcolor_eqb_spec (Some c) (Some c)); congruence.
Qed.

Lemma touches_connected n P p q c : connected n P p q -> touches n P p c <-> touches n P q c.
Proof.
  intros H. split; intros (a & r & Ha & Hr); exists a, r; (split; [|exact Hr]).
  - eapply connected_trans; [apply connected_sym, H|exact Ha].
  - eapply connected_trans; [exact H|exact Ha].
Qed.

Theorem territories_ok order dbg n g : wf n g -> (forall l, order l ≡ₚ l) ->
  exists bt wt, get_territories order dbg g = Ok (bt, wt) /\ NoDup bt /\ NoDup wt /\
    (forall x, x ∈ bt <-> snd x = None /\ owned n (pos_of g) Black (fst x)) /\
    (forall x, x ∈ wt <-> snd x = None /\ owned n (pos_of g) White (fst x)).
Proof.
  intros W Ho. unfold get_territories. rewrite (get_empty_coords_ok n g W). cbn [bind]. set (P := pos_of g).
  set (l := List.filter _ _).
  assert (Hl : forall p, p ∈ l <-> on n p /\ P p = None).
  { intros p. unfold l. rewrite elem_of_lfilter, elem_of_points. fold P. destruct (P p); cbn [is_none]; intuition discriminate. }
  unfold get_chains_from_stones.
  destruct (chains_from_stones_ok dbg n g l [] W) as (rs & Er & Nr & Fr & _ & Cr).
  { intros p Hp. apply Hl, Hp. }
  { constructor. }
  { constructor. }
  rewrite Er. cbn [bind]. clear Er. fold P in Fr.
  set (f := fun '(bt, wt) grp => _).
  assert (Hf : forall rs bt wt, Forall (region_of n P) rs -> NoDup (bt ++ List.concat rs) -> NoDup (wt ++ List.concat rs) ->
    exists bt' wt', foldM f rs (bt, wt) = Ok (bt', wt') /\ NoDup bt' /\ NoDup wt' /\
      (forall x, x ∈ bt' <-> x ∈ bt \/ x ∈ List.concat rs /\ owned n P Black (fst x)) /\
      (forall x, x ∈ wt' <-> x ∈ wt \/ x ∈ List.concat rs /\ owned n P White (fst x))).
  { subst f. clear - W Ho. intros rs. induction rs as [|R rs IH]; intros bt wt Fr NB NW.
    - exists bt, wt. cbn [List.concat] in *. rewrite app_nil_r in NB, NW. split; [reflexivity|]. split; [exact NB|]. split; [exact NW|].
      split; intros x; (split; [tauto|]); intros [H|[H _]]; try exact H; apply elem_of_nil in H; destruct H.
    - apply Forall_cons in Fr as [HR Fr]. destruct HR as (p & Hp & He & NR & HR).
      assert (HO : forall x, x ∈ order R <-> x ∈ R) by (intros x; rewrite (Ho R); reflexivity).
      assert (HR' : forall x, x ∈ order R <-> snd x = None /\ connected n P p (fst x)) by (intros x; rewrite HO; apply HR).
      cbn [foldM]. rewrite (scan_group_ok dbg n g (order R) W).
      2:{ intros x Hx. apply HR' in Hx as [_ Hx]. eapply connected_on; eassumption. }
      2:{ reflexivity. }
      cbn [bind orb]. cbv zeta. fold P.
      pose proof (near_touches n P Black (order R) p Hp HR') as TB. pose proof (near_touches n P White (order R) p Hp HR') as TW.
      cbn [List.concat] in *.
      assert (Hown : forall x c, x ∈ R -> owned n P c (fst x) <-> touches n P p c /\ ~ touches n P p (opp c)).
      { intros x c Hx. apply HR in Hx as [_ Hx]. unfold owned. rewrite <- !(touches_connected n P p (fst x)) by exact Hx.
        split; [tauto|]. intros H. split; [eapply connected_on; eassumption|]. split; [|tauto].
        rewrite <- (connected_same n P _ _ Hx). exact He. }
      assert (NB' : NoDup (bt ++ List.concat rs)).
      { apply NoDup_app in NB as (A1 & A2 & A3). apply NoDup_app in A3 as (A4 & A5 & A6). apply NoDup_app.
        split; [exact A1|]. split; [|exact A6]. intros x H1 H2. apply (A2 x H1), elem_of_app. tauto. }
      assert (NW' : NoDup (wt ++ List.concat rs)).
      { apply NoDup_app in NW as (A1 & A2 & A3). apply NoDup_app in A3 as (A4 & A5 & A6). apply NoDup_app.
        split; [exact A1|]. split; [|exact A6]. intros x H1 H2. apply (A2 x H1), elem_of_app. tauto. }
      destruct (near n P Black (order R)) eqn:Nb, (near n P White (order R)) eqn:Nw; cbn [andb negb].
      + assert (T1 : touches n P p Black) by (apply TB; reflexivity). assert (T2 : touches n P p White) by (apply TW; reflexivity).
        destruct (IH bt wt Fr NB' NW') as (bt' & wt' & E & B1 & B2 & B3 & B4). exists bt', wt'.
        split; [exact E|]. split; [exact B1|]. split; [exact B2|]. split; intros x; [rewrite B3|rewrite B4]; rewrite elem_of_app.
        * split; [tauto|]. intros [H|[[H|H] H']]; [tauto| |tauto]. apply (Hown x Black H) in H'. cbn [opp] in H'. tauto.
        * split; [tauto|]. intros [H|[[H|H] H']]; [tauto| |tauto]. apply (Hown x White H) in H'. cbn [opp] in H'. tauto.
      + assert (T1 : touches n P p Black) by (apply TB; reflexivity).
        assert (T2 : ~ touches n P p White) by (intros H; apply TW in H; discriminate).
        destruct (IH (bt ++ order R) wt Fr) as (bt' & wt' & E & B1 & B2 & B3 & B4).
        { rewrite <- app_assoc. rewrite (Ho R). exact NB. }
        { exact NW'. }
        exists bt', wt'. split; [exact E|]. split; [exact B1|]. split; [exact B2|]. split; intros x; [rewrite B3|rewrite B4]; rewrite !elem_of_app.
        * rewrite HO. pose proof (Hown x Black) as Hx. cbn [opp] in Hx. tauto.
        * pose proof (Hown x White) as Hx. cbn [opp] in Hx. tauto.
      + assert (T1 : ~ touches n P p Black) by (intros H; apply TB in H; discriminate).
        assert (T2 : touches n P p White) by (apply TW; reflexivity).
        destruct (IH bt (wt ++ order R) Fr) as (bt' & wt' & E & B1 & B2 & B3 & B4).
        { exact NB'. }
        { rewrite <- app_assoc. rewrite (Ho R). exact NW. }
        exists bt', wt'. split; [exact E|]. split; [exact B1|]. split; [exact B2|]. split; intros x; [rewrite B3|rewrite B4]; rewrite !elem_of_app.
        * pose proof (Hown x Black) as Hx. cbn [opp] in Hx. tauto.
        * rewrite HO. pose proof (Hown x White) as Hx. cbn [opp] in Hx. tauto.
      + assert (T1 : ~ touches n P p Black) by (intros H; apply TB in H; discriminate).
        assert (T2 : ~ touches n P p White) by (intros H; apply TW in H; discriminate).
        destruct (IH bt wt Fr NB' NW') as (bt' & wt' & E & B1 & B2 & B3 & B4). exists bt', wt'.
        split; [exact E|]. split; [exact B1|]. split; [exact B2|]. split; intros x; [rewrite B3|rewrite B4]; rewrite elem_of_app.
        * pose proof (Hown x Black) as Hx. tauto.
        * pose proof (Hown x White) as Hx. tauto. }
  destruct (Hf rs [] [] Fr Nr Nr) as (bt & wt & E & NB & NW & HB & HW). exists bt, wt.
  split; [exact E|]. split; [exact NB|]. split; [exact NW|].
  assert (Hcov : forall x c, x ∈ List.concat rs /\ owned n P c (fst x) <-> snd x = None /\ owned n P c (fst x)).
  { intros x c. split.
    - intros [H Ho']. split; [|exact Ho']. apply elem_of_list_In, in_concat in H as (R & HR & Hx).
      rewrite Forall_forall in Fr. destruct (Fr R) as (p & _ & _ & _ & H); [apply elem_of_list_In, HR|].
      apply elem_of_list_In, H in Hx. tauto.
    - intros [H Ho']. split; [|exact Ho']. destruct x as [q x]. cbn [fst snd] in *. subst x. apply Cr, Hl. unfold owned in Ho'. tauto. }
  split; intros x.
  - rewrite HB, Hcov. split; [|tauto]. intros [H|H]; [apply elem_of_nil in H; destruct H|exact H].
  - rewrite HW, Hcov. split; [|tauto]. intros [H|H]; [apply elem_of_nil in H; destruct H|exact H].
Qed.
