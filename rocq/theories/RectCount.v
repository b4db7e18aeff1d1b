(** Territory on boards whose width divides their height (C110). *)
From stdpp Require Import relations.
From Verif Require Import MonadFacts Spec Reach Territory Struct Bridge GameFacts RulesFacts BoardFacts TerritoryFacts.
From Verif Require Import RectReach RectCoord RectInv RectBridge RectGame RectBoard RectMoves RectList RectReachFacts RectScore RectCountSpec Observe.
From Coq Require Import Lia.

Local Notation length := Datatypes.length.
Open Scope nat_scope.

Section Fill.
  Variables (dbg : bool) (n : size_t) (g : goban) (p0 : coord).
  Hypothesis W : rwf n g.
  Hypothesis Hp0 : ron n p0.
  Let P := pos_of g.
  Let mc : option color := None.

  Definition rinside (x : point) : Prop := snd x = mc /\ rspread n P p0 (fst x).

  Lemma rinside_on x : rinside x -> ron n (fst x).
  Proof using Hp0. intros [_ [->|(r & Hr & _ & _ & H)]]; [exact Hp0|]. eapply rconnected_on; eassumption. Qed.

  Lemma rinside_step x q : rinside x -> ron n q -> adj (fst x) q -> P q = mc -> rinside (q, mc).
  Proof using Hp0.
    intros Hx Hq Ha Hc. pose proof (rinside_on x Hx) as Hon. split; [reflexivity|]. cbn [fst]. right.
    destruct Hx as [_ [E|(r & Hr & Hr' & Hn & H)]].
    - exists q. rewrite E in Ha. split; [exact Hq|]. split; [exact Ha|]. split; [exact Hc|apply rtc_refl].
    - exists r. split; [exact Hr|]. split; [exact Hr'|]. split; [exact Hn|]. eapply rconnected_trans; [exact H|]. apply rtc_once.
      split; [exact Hon|]. split; [exact Hq|]. split; [exact Ha|]. rewrite <- (rconnected_same n P _ _ H), Hn, Hc. reflexivity.
  Qed.

  Lemma rinside_bound (E : list point) : NoDup E -> (forall x, x ∈ E -> rinside x) -> (length E <= 361)%nat.
  Proof using W Hp0.
    intros Nd HE. transitivity (length (rpoints n)).
    - replace (length E) with (length (E.*1)) by apply fmap_length. apply submseteq_length, NoDup_submseteq.
      + apply NoDup_fmap_in; [|exact Nd]. intros [a x] [b y] Ha Hb. cbn [fst]. intros <-.
        destruct (HE _ Ha) as [H1 _], (HE _ Hb) as [H2 _]. cbn [snd] in H1, H2. congruence.
      + intros q Hq. apply elem_of_list_fmap in Hq as (x & -> & Hx). apply elem_of_rpoints, rinside_on, HE, Hx.
    - rewrite rpoints_length. destruct (rwf_n n g W) as (H1 & H2 & k & Hk). destruct n as [h w]. cbn [fst snd] in *.
      destruct k as [|k]; [lia|]. nia.
  Qed.

  Lemma rexplore_ok fuel : forall E S,
    (fill_measure E S < fuel)%nat ->
    NoDup E -> (forall x, x ∈ E -> rinside x) -> (forall x, x ∈ S -> rinside x) ->
    (forall x q, x ∈ E -> ron n q -> adj (fst x) q -> P q = mc -> (q, mc) ∈ E \/ (q, mc) ∈ S) ->
    exists R, explore fuel dbg g mc E S = Ok R /\ NoDup R /\ (forall x, x ∈ R -> rinside x) /\
      (forall x, x ∈ E -> x ∈ R) /\
      (forall x q, x ∈ R -> ron n q -> adj (fst x) q -> P q = mc -> (q, mc) ∈ R).
  Proof using W Hp0.
    induction fuel as [|f IH]; intros E S Hf Nd HE HS Hcl; [lia|].
    cbn [explore]. destruct S as [|s rest].
    - exists E. split; [reflexivity|]. split; [exact Nd|]. split; [exact HE|]. split; [tauto|].
      intros x q Hx Hq Ha Hc. destruct (Hcl x q Hx Hq Ha Hc) as [H|H]; [exact H|]. apply elem_of_nil in H. destruct H.
    - assert (Is : rinside s) by (apply HS; left). pose proof (rinside_on s Is) as Hs.
      rewrite (rconnected_points_ok dbg n g (fst s) W Hs). cbn [bind].
      set (E' := set_insert E s).
      set (new := List.filter _ _).
      assert (Hnew : forall x, x ∈ new <-> x ∉ E' /\ snd x = mc /\ ron n (fst x) /\ adj (fst s) (fst x) /\ P (fst x) = mc).
      { intros x. unfold new. rewrite elem_of_lfilter, elem_of_lmap, andb_true_iff, negb_true_iff.
        split.
        - intros ((q & -> & Hq) & Hc & He). cbn [fst snd] in *. apply (relem_of_nbrs n _ q Hs) in Hq as [Hq Ha].
          destruct (mcolor_eqb_spec (pos_of g q) mc) as [Hm|]; [|discriminate].
          split; [intros Hx; apply set_contains_spec in Hx; congruence|]. tauto.
        - intros (H1 & H2 & H3 & H4 & H5). destruct x as [q x]. cbn [fst snd] in *. split; [|split].
          + exists q. split; [f_equal; unfold P in H5; congruence|]. apply (relem_of_nbrs n _ q Hs). tauto.
          + rewrite H2. destruct (mcolor_eqb_spec mc mc); congruence.
          + destruct (set_contains E' (q, x)) eqn:Ec; [|reflexivity]. apply set_contains_spec in Ec. contradiction. }
      assert (Hlen : (length new <= 4)%nat).
      { unfold new. pose proof (lfilter_length (fun p : point => mcolor_eqb (snd p) mc && negb (set_contains E' p))
                                   (List.map (fun q => (q, pos_of g q)) (rnbrs n (fst s)))) as H.
        rewrite map_length in H. pose proof (rnbrs_length n (fst s)). unfold point in *. lia. }
      assert (NdE' : NoDup E') by apply set_insert_NoDup, Nd.
      assert (HE' : forall x, x ∈ E' -> rinside x).
      { intros x Hx. apply set_insert_spec in Hx as [Hx| ->]; [apply HE, Hx|exact Is]. }
      destruct (IH E' (rev new ++ rest)) as (R & ER & NR & IR & SR & CR).
      + pose proof (rinside_bound E' NdE' HE') as Hb. pose proof (set_insert_length E s) as Hl. fold E' in Hl.
        unfold fill_measure in *. cbn [length] in Hf. rewrite app_length, rev_length.
        destruct (rev new) as [|y rn] eqn:Er.
        * apply (f_equal (@length point)) in Er. rewrite rev_length in Er. cbn [length] in Er. cbn [app].
          assert (match rest with [] => 0 | s0 :: _ => if set_contains E' s0 then 4 else 0 end <= 4)%nat.
          { destruct rest as [|z rest']; [lia|]. destruct (set_contains E' z); lia. }
          unfold point in *. destruct (set_contains E s); lia.
        * assert (Hy : set_contains E' y = false).
          { destruct (set_contains E' y) eqn:Ey; [|reflexivity]. apply set_contains_spec in Ey.
            assert (Hyn : y ∈ new) by (apply elem_of_list_In, in_rev; rewrite Er; left; reflexivity).
            apply Hnew in Hyn. tauto. }
          cbn [app]. rewrite Hy. unfold point in *. destruct (set_contains E s); lia.
      + exact NdE'.
      + exact HE'.
      + intros x Hx. apply elem_of_app in Hx as [Hx|Hx]; [|apply HS; right; exact Hx].
        apply elem_of_list_In, in_rev, elem_of_list_In, Hnew in Hx as (_ & H2 & H3 & H4 & H5).
        destruct x as [q x]. cbn [fst snd] in *. subst x. apply (rinside_step s); assumption.
      + intros x q Hx Hq Ha Hc. destruct (set_contains E' (q, mc)) eqn:Ec; [left; apply set_contains_spec, Ec|].
        assert (Hn : (q, mc) ∉ E') by (intros H; apply set_contains_spec in H; congruence).
        right. apply elem_of_app. apply set_insert_spec in Hx as [Hx| ->].
        * destruct (Hcl x q Hx Hq Ha Hc) as [H|H]; [exfalso; apply Hn, set_insert_spec; tauto|].
          apply elem_of_cons in H as [H|H]; [exfalso; apply Hn, set_insert_spec; tauto|]. tauto.
        * left. apply elem_of_list_In. apply -> in_rev. apply elem_of_list_In, Hnew. cbn [fst snd]. tauto.
      + exists R. split; [exact ER|]. split; [exact NR|]. split; [exact IR|]. split; [|exact CR].
        intros x Hx. apply SR, set_insert_spec. tauto.
  Qed.

  (** also from a point that is not empty *)
  Lemma rgroup_from_point_ok :
    exists R, get_group_from_point dbg g (p0, mc) = Ok R /\ NoDup R /\ forall x, x ∈ R <-> rinside x.
  Proof using W Hp0.
    unfold get_group_from_point. cbn [fst snd]. rewrite (rconnected_points_ok dbg n g p0 W Hp0). cbn [bind].
    set (new := List.filter _ _).
    assert (Hnew : forall x, x ∈ new <-> snd x = mc /\ ron n (fst x) /\ adj p0 (fst x) /\ P (fst x) = mc).
    { intros [q x]. unfold new. rewrite elem_of_lfilter, elem_of_lmap. cbn [fst snd]. split.
      - intros ((q' & [= -> ->] & Hq) & Hc). apply (relem_of_nbrs n p0 q' Hp0) in Hq as [Hq Ha].
        destruct (mcolor_eqb_spec (pos_of g q') mc) as [Hm|]; [|discriminate]. tauto.
      - intros (H2 & H3 & H4 & H5). split.
        + exists q. split; [f_equal; unfold P in H5; congruence|]. apply (relem_of_nbrs n p0 q Hp0). tauto.
        + rewrite H2. destruct (mcolor_eqb_spec mc mc); congruence. }
    assert (Hlen : (length new <= 4)%nat).
    { unfold new. pose proof (lfilter_length (fun p : point => mcolor_eqb (snd p) mc)
                                 (List.map (fun q => (q, pos_of g q)) (rnbrs n p0))) as H.
      rewrite map_length in H. pose proof (rnbrs_length n p0). unfold point in *. lia. }
    assert (I0 : rinside (p0, mc)) by (split; [reflexivity|left; reflexivity]).
    destruct (rexplore_ok explore_fuel [(p0, mc)] (rev new)) as (R & ER & NR & IR & SR & CR).
    - unfold fill_measure. rewrite rev_length. cbn [length]. change explore_fuel with 3000%nat.
      assert (match rev new with [] => 0 | s :: _ => if set_contains [(p0, mc)] s then 4 else 0 end <= 4)%nat.
      { destruct (rev new) as [|z l]; [lia|]. destruct (set_contains [(p0, mc)] z); lia. }
      unfold point in *. lia.
    - apply NoDup_singleton.
    - intros x Hx. apply elem_of_list_singleton in Hx. subst x. exact I0.
    - intros x Hx. apply elem_of_list_In, in_rev, elem_of_list_In, Hnew in Hx as (H2 & H3 & H4 & H5).
      destruct x as [q x]. cbn [fst snd] in *. subst x. apply (rinside_step (p0, mc)); assumption.
    - intros x q Hx Hq Ha Hc. apply elem_of_list_singleton in Hx. subst x. cbn [fst] in Ha. right.
      apply elem_of_list_In. apply -> in_rev. apply elem_of_list_In, Hnew. cbn [fst snd]. tauto.
    - exists R. split; [exact ER|]. split; [exact NR|]. intros x. split; [apply IR|].
      intros [Hx1 Hx2]. destruct x as [q x]. cbn [fst snd] in *. subst x. destruct Hx2 as [->|(r & Hr & Ha & Hn & H)]; [apply SR; left|].
      assert (Hr0 : (r, mc) ∈ R) by (apply (CR (p0, mc) r); [apply SR; left|exact Hr|exact Ha|exact Hn]).
      revert q H. unfold rconnected. refine (rtc_ind_r _ _ _ _); [exact Hr0|].
      intros a b Hab (Ha' & Hb & Hadj & Hc) IHa. apply (CR (a, mc) b IHa Hb Hadj).
      rewrite <- Hc, <- (rconnected_same n P r a Hab). exact Hn.
  Qed.
End Fill.

Lemma fst_none (l : list point) : (forall x, x ∈ l -> snd x = None) -> l = List.map (fun p => (p, None)) l.*1.
Proof.
  induction l as [|[p c] l IH]; intros H; [reflexivity|]. cbn. pose proof (H (p, c) (elem_of_list_here _ _)) as E. cbn in E. subst c.
  f_equal. apply IH. intros x Hx. apply H. right. exact Hx.
Qed.

Lemma elem_of_fst (l : list point) p : (forall x, x ∈ l -> snd x = None) -> p ∈ l.*1 <-> (p, None) ∈ l.
Proof.
  intros H. rewrite elem_of_list_fmap. split.
  - intros ([q c] & -> & Hx). pose proof (H _ Hx) as E. cbn in *. subst c. exact Hx.
  - intros Hx. exists (p, None). auto.
Qed.

(** the points of each region *)
Definition map_fst (L : list (list point)) : list (list coord) := (fun R : list point => R.*1) <$> L.

Lemma map_fst_in R L : R ∈ map_fst L <-> exists R0, R = R0.*1 /\ R0 ∈ L.
Proof. unfold map_fst. rewrite elem_of_list_fmap. reflexivity. Qed.

Lemma rchains_ok dbg n g : rwf n g -> forall l acc, (forall p, p ∈ l -> ron n p) ->
  (forall R, R ∈ acc -> forall x, x ∈ R -> snd x = None /\ ron n (fst x)) ->
  exists acc', foldM (fun acc s =>
           if existsb (fun set => set_contains set s) acc then Ok acc
           else let! grp := get_group_from_point dbg g s in Ok (acc ++ [grp]))
        (List.map (fun p => (p, None)) l) acc = Ok acc' /\
    rchosen n (pos_of g) (map_fst acc) l (map_fst acc') /\
    (forall R, R ∈ acc' -> forall x, x ∈ R -> snd x = None /\ ron n (fst x)).
Proof.
  intros W. induction l as [|p l IH]; intros acc Hl Ha; cbn [List.map foldM].
  { exists acc. split; [reflexivity|]. split; [constructor|exact Ha]. }
  assert (Hl' : forall q, q ∈ l -> ron n q) by (intros q Hq; apply Hl; right; exact Hq).
  destruct (existsb (fun set => set_contains set (p, None)) acc) eqn:Ex; cbn [bind].
  - destruct (IH acc Hl' Ha) as (acc' & E & T & A'). exists acc'. split; [exact E|]. split; [|exact A']. apply rt_seen; [|exact T].
    apply existsb_exists in Ex as (R & HR & Hc). apply set_contains_spec in Hc. apply elem_of_list_In in HR. exists (R.*1).
    split; [apply map_fst_in; eauto|]. apply elem_of_fst; [|exact Hc]. intros x Hx. apply (Ha R HR x Hx).
  - assert (Hp : ron n p) by (apply Hl; left).
    destruct (rgroup_from_point_ok dbg n g p W Hp) as (R & ER & NR & HR). rewrite ER. cbn [bind].
    assert (HR1 : forall x, x ∈ R -> snd x = None /\ ron n (fst x)).
    { intros x Hx. apply HR in Hx. split; [apply Hx|exact (rinside_on n g p Hp x Hx)]. }
    destruct (IH (acc ++ [R]) Hl') as (acc' & E & T & A').
    { intros R' HR' x Hx. apply elem_of_app in HR' as [HR'|HR']; [exact (Ha R' HR' x Hx)|]. apply elem_of_list_singleton in HR' as ->. exact (HR1 x Hx). }
    exists acc'. split; [exact E|]. split; [|exact A']. apply rt_new with (R := R.*1).
    + intros R' HR' Hin. apply map_fst_in in HR' as (R0 & -> & HR0). apply elem_of_fst in Hin; [|intros x Hx; apply (Ha R0 HR0 x Hx)].
      assert (existsb (fun set => set_contains set (p, None)) acc = true); [|congruence].
      apply existsb_exists. exists R0. split; [apply elem_of_list_In, HR0|apply set_contains_spec, Hin].
    + apply NoDup_fmap_in; [|exact NR]. intros [a x] [b y] Ha' Hb'. cbn [fst]. intros <-.
      destruct (HR1 _ Ha') as [H1 _], (HR1 _ Hb') as [H2 _]. cbn [snd] in H1, H2. congruence.
    + intros q. rewrite elem_of_fst by (intros x Hx; apply HR1, Hx). rewrite HR. unfold rinside. cbn [fst snd]. tauto.
    + unfold map_fst in T. rewrite fmap_app in T. exact T.
Qed.

Lemma rnear_borders n P c (R : list point) : (forall x, x ∈ R -> ron n (fst x)) -> rnear n P c R = true <-> rborders n P c (fun q => q ∈ R.*1).
Proof.
  intros Hon. unfold rnear, rborders. rewrite existsb_spec. split.
  - intros (e & He & H). apply existsb_spec in H as (r & Hr & Hc). apply (relem_of_nbrs n _ r (Hon e He)) in Hr as [Hr Ha].
    exists (fst e), r. split; [apply elem_of_list_fmap; eauto|]. split; [exact Hr|]. split; [exact Ha|].
    destruct (mcolor_eqb_spec (P r) (Some c)); congruence.
  - intros (q & r & Hq & Hr & Ha & Hc). apply elem_of_list_fmap in Hq as (e & -> & He). exists e. split; [exact He|].
    apply existsb_spec. exists r. split; [apply (relem_of_nbrs n _ r (Hon e He)); tauto|].
    rewrite Hc. destruct (mcolor_eqb_spec (Some c) (Some c)); congruence.
Qed.

(** whether a region counts for [c] *)
Definition counts_for (n : size_t) (P : pos) (c : color) (R : list coord) : bool :=
  rnear n P c (List.map (fun p => (p, None)) R) && negb (rnear n P (opp c) (List.map (fun p => (p, None)) R)).

Lemma rcollect_ok order dbg n g : rwf n g -> (forall l, order l ≡ₚ l) -> forall L bt wt,
  (forall R, R ∈ L -> forall x, x ∈ R -> snd x = None /\ ron n (fst x)) ->
  exists bt' wt', foldM (fun '(bt, wt) grp =>
             let! s := scan_group dbg g (order grp) (false, false) in
             match s with
             | None => Ok (bt, wt)
             | Some (nb, nw) =>
                 if nb && negb nw then Ok (bt ++ order grp, wt)
                 else if negb nb && nw then Ok (bt, wt ++ order grp)
                 else Ok (bt, wt)
             end) L (bt, wt) = Ok (bt', wt') /\
    bt'.*1 ≡ₚ bt.*1 ++ concat (List.filter (counts_for n (pos_of g) Black) (map_fst L)) /\
    wt'.*1 ≡ₚ wt.*1 ++ concat (List.filter (counts_for n (pos_of g) White) (map_fst L)) /\
    (forall x, x ∈ bt' -> x ∈ bt \/ snd x = None) /\ (forall x, x ∈ wt' -> x ∈ wt \/ snd x = None).
Proof.
  intros W Ho. induction L as [|G L IH]; intros bt wt HL.
  - exists bt, wt. cbn. rewrite !app_nil_r. split; [reflexivity|]. split; [reflexivity|]. split; [reflexivity|]. auto.
  - pose proof (HL G (elem_of_list_here _ _)) as HG.
    assert (HL' : forall R, R ∈ L -> forall x, x ∈ R -> snd x = None /\ ron n (fst x)) by (intros R HR; apply HL; right; exact HR).
    cbn [foldM].
    rewrite (rscan_group_ok dbg n g (order G) W) by (try reflexivity; intros x Hx; apply HG; rewrite <- (Ho G); exact Hx).
    rewrite !(rnear_perm _ _ _ (order G) G (Ho G)). cbn [bind orb].
    assert (HO : (order G).*1 ≡ₚ G.*1) by (apply fmap_Permutation, Ho).
    assert (HN : forall x, x ∈ order G -> snd x = None) by (intros x Hx; apply HG; rewrite <- (Ho G); exact Hx).
    change (map_fst (G :: L)) with (G.*1 :: map_fst L). cbn [List.filter]. 
    assert (HF : forall c, counts_for n (pos_of g) c G.*1 = rnear n (pos_of g) c G && negb (rnear n (pos_of g) (opp c) G)).
    { intros c. unfold counts_for. rewrite <- (fst_none G) by (intros x Hx; apply HG, Hx). reflexivity. }
    rewrite !HF. cbn [opp].
    destruct (rnear n (pos_of g) Black G), (rnear n (pos_of g) White G); cbn [andb negb bind].
    + destruct (IH bt wt HL') as (bt' & wt' & E & H1 & H2 & H3 & H4). exists bt', wt'. split; [exact E|]. split; [exact H1|]. split; [exact H2|]. split; [exact H3|exact H4].
    + destruct (IH (bt ++ order G) wt HL') as (bt' & wt' & E & H1 & H2 & H3 & H4). exists bt', wt'. split; [exact E|]. split.
      { rewrite H1, fmap_app, HO. cbn [concat]. rewrite app_assoc. reflexivity. }
      split; [exact H2|]. split; [|exact H4]. intros x Hx. destruct (H3 x Hx) as [H|H]; [|auto]. apply elem_of_app in H as [H|H]; auto.
    + destruct (IH bt (wt ++ order G) HL') as (bt' & wt' & E & H1 & H2 & H3 & H4). exists bt', wt'. split; [exact E|]. split; [exact H1|]. split.
      { rewrite H2, fmap_app, HO. cbn [concat]. rewrite app_assoc. reflexivity. }
      split; [exact H3|]. intros x Hx. destruct (H4 x Hx) as [H|H]; [|auto]. apply elem_of_app in H as [H|H]; auto.
    + destruct (IH bt wt HL') as (bt' & wt' & E & H1 & H2 & H3 & H4). exists bt', wt'. split; [exact E|]. split; [exact H1|]. split; [exact H2|]. split; [exact H3|exact H4].
Qed.

Lemma rterritories_core order dbg n g k : rwf n g -> fst n = k * snd n -> (forall l, order l ≡ₚ l) ->
  exists l G bt wt, get_empty_coords g = Ok l /\ rchosen n (pos_of g) [] l G /\
    get_territories order dbg g = Ok (bt, wt) /\
    rcounted n (pos_of g) Black G bt.*1 /\ rcounted n (pos_of g) White G wt.*1 /\
    (forall x, x ∈ bt \/ x ∈ wt -> snd x = None).
Proof.
  intros W Hk Ho. unfold get_territories. destruct (rempty_times n g k (0, 0) W Hk) as (l & El & Hl & _). rewrite El. cbn [bind].
  unfold get_chains_from_stones.
  destruct (rchains_ok dbg n g W l [] Hl) as (L & EL & T & HL). { intros R HR. apply elem_of_nil in HR. destruct HR. }
  rewrite EL. cbn [bind].
  destruct (rcollect_ok order dbg n g W Ho L [] [] HL) as (bt & wt & E & H1 & H2 & H3 & H4).
  exists l, (map_fst L), bt, wt. split; [reflexivity|]. split; [exact T|]. split; [exact E|].
  assert (HC : forall c R, R ∈ (map_fst L) -> counts_for n (pos_of g) c R = true <-> ronly n (pos_of g) c (fun q => q ∈ R)).
  { intros c R HR. apply map_fst_in in HR as (R0 & -> & HR0). unfold counts_for.
    rewrite <- (fst_none R0) by (intros x Hx; apply (HL R0 HR0 x Hx)).
    unfold ronly. rewrite <- !(rnear_borders n (pos_of g) _ R0) by (intros x Hx; apply (HL R0 HR0 x Hx)).
    destruct (rnear n (pos_of g) c R0), (rnear n (pos_of g) (opp c) R0); cbn; intuition congruence. }
  split; [exists (counts_for n (pos_of g) Black); split; [intros R HR; apply HC, HR|exact H1]|].
  split; [exists (counts_for n (pos_of g) White); split; [intros R HR; apply HC, HR|exact H2]|].
  intros x [Hx|Hx]; [destruct (H3 x Hx) as [H|H]|destruct (H4 x Hx) as [H|H]]; try exact H; apply elem_of_nil in H; destruct H.
Qed.

Theorem rterritories_exact order dbg n b w g : Nat.divide (snd n) (fst n) -> rgreach dbg n b w g -> (forall l, order l ≡ₚ l) ->
  exists l G bt wt, pseudo_legals g = Ok l /\ rchosen n (position g) [] l G /\
    get_territories order dbg (gm_goban g) = Ok (bt, wt) /\
    rcounted n (position g) Black G bt.*1 /\ rcounted n (position g) White G wt.*1 /\
    (forall x, x ∈ bt \/ x ∈ wt -> snd x = None).
Proof.
  intros [k Hk] HG Ho. pose proof (rgi_wf _ _ _ _ (rgreach_inv _ _ _ _ _ (ex_intro _ k Hk) HG)) as W.
  exact (rterritories_core order dbg n (gm_goban g) k W Hk Ho).
Qed.
