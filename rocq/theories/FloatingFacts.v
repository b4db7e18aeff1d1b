(** [get_floating_stones], exactly (C53). *)
From stdpp Require Import relations sorting.
From Verif Require Import Spec Observe DeadStones CoordFacts Struct Push Inv Remove Bridge MonadFacts GameFacts RulesFacts BoardFacts CheckFacts EyeFacts EyeExact ApiFacts ViewFacts.
From Coq Require Import Lia.

Local Notation length := Datatypes.length.

(** how often a key was counted *)
Fixpoint tally (k : nat) (m : list (nat * nat)) : nat :=
  match m with [] => 0 | (k', v) :: t => if (k =? k')%nat then S v else tally k t end.

Lemma tally_bump k j m : tally k (bump j m) = (tally k m + if (k =? j)%nat then 1 else 0)%nat.
Proof.
  induction m as [|[k' v] m IH]; cbn; [destruct (k =? j)%nat; reflexivity|].
  destruct (Nat.eqb_spec j k') as [->|Hj]; cbn; destruct (Nat.eqb_spec k k') as [->|Hk]; try lia.
  destruct (Nat.eqb_spec k' j); [congruence|lia].
Qed.

Lemma keys_bump j m : NoDup m.*1 -> NoDup (bump j m).*1 /\ forall k, k ∈ (bump j m).*1 -> k = j \/ k ∈ m.*1.
Proof.
  induction m as [|[k' v] m IH]; intros Nd; cbn.
  { split; [apply NoDup_singleton|]. intros k Hk. apply elem_of_list_singleton in Hk. auto. }
  cbn in Nd. apply NoDup_cons in Nd as [Hk' Nd]. destruct (Nat.eqb_spec j k') as [->|Hj]; cbn.
  - split; [constructor; assumption|]. auto.
  - destruct (IH Nd) as [IH1 IH2]. split; [constructor; [intros H; apply IH2 in H as [->|]; contradiction|exact IH1]|].
    intros k Hk. apply elem_of_cons in Hk as [->|Hk]; [right; left|]. apply IH2 in Hk as [->|Hk]; [left; reflexivity|right; right; exact Hk].
Qed.

Lemma tally_elem k v m : NoDup m.*1 -> (k, v) ∈ m <-> tally k m = S v.
Proof.
  induction m as [|[k' v'] m IH]; intros Nd; cbn.
  { split; [intros H; inversion H|discriminate]. }
  cbn in Nd. apply NoDup_cons in Nd as [Hk' Nd]. rewrite elem_of_cons, (IH Nd). destruct (Nat.eqb_spec k k') as [->|Hk].
  - split; [intros [E|E]|].
    + injection E as ->. reflexivity.
    + exfalso. apply Hk'. apply IH in E; [|exact Nd]. apply elem_of_list_fmap. exists (k', v). auto.
    + intros E. left. congruence.
  - split; [intros [E|E]; [congruence|exact E]|auto].
Qed.

Lemma bump_all l : forall m, NoDup m.*1 ->
  NoDup (fold_left (fun m k => bump k m) l m).*1 /\
  forall k, tally k (fold_left (fun m k => bump k m) l m) = (tally k m + length (List.filter (Nat.eqb k) l))%nat.
Proof.
  induction l as [|j l IH]; intros m Nd; cbn; [split; [exact Nd|intros; lia]|].
  destruct (IH (bump j m) (proj1 (keys_bump j m Nd))) as [H1 H2]. split; [exact H1|]. intros k. rewrite H2, tally_bump.
  destruct (k =? j)%nat; cbn; lia.
Qed.

Lemma once k l : NoDup l -> length (List.filter (Nat.eqb k) l) = if decide (k ∈ l) then 1%nat else 0%nat.
Proof.
  intros Nd. induction Nd as [|x l Hx Nd IH]; cbn; [rewrite decide_False by (intros H; inversion H); reflexivity|].
  destruct (Nat.eqb_spec k x) as [->|Hk]; cbn.
  - rewrite IH, decide_False by exact Hx. rewrite decide_True by left. reflexivity.
  - rewrite IH. destruct (decide (k ∈ l)).
    + rewrite decide_True by (right; assumption). reflexivity.
    + rewrite decide_False by (rewrite elem_of_cons; tauto). reflexivity.
Qed.

Lemma sorted_seq m : forall s, StronglySorted lt (seq s m).
Proof.
  induction m as [|m IH]; intros s; cbn; constructor; [apply IH|]. apply Forall_forall. intros y Hy. apply elem_of_seq in Hy. lia.
Qed.

Lemma elem_of_nb_idx n p j : on n p -> j ∈ nb n (idx n p) <-> exists q, on n q /\ adj p q /\ j = idx n q.
Proof.
  intros Hp. pose proof (on_pos n p Hp) as Hn. split.
  - intros H. assert (Hj : (j < n * n)%nat) by (eapply nb_bound; [exact Hn|apply idx_on; exact Hp|exact H]).
    pose proof (pt_on n j Hj) as Hq. exists (pt n j). split; [exact Hq|]. split; [|symmetry; apply idx_pt; exact Hj]. apply (adj_nb n p _ Hp Hq). rewrite (idx_pt n j Hj). exact H.
  - intros (q & Hq & A & ->). apply (adj_nb n p q Hp Hq). exact A.
Qed.

Theorem floating_exact dbg n b w g : greach dbg n b w g ->
  exists l, get_floating_stones dbg g = Ok l /\ StronglySorted lt l /\
    forall i, i ∈ l <-> (i < length (all_chains (gm_goban g)))%nat /\
      exists k, (3 <= k)%nat /\ card (fun p => on n p /\ some_eye n g p /\ near_group n (gm_goban g) i p) k.
Proof.
  intros HG. pose proof (gi_wf _ _ _ _ (greach_inv _ _ _ _ _ HG)) as W. set (gb := gm_goban g) in *.
  unfold get_floating_stones. unfold pseudo_legals. fold gb. rewrite (get_empty_coords_ok n gb W). cbn [bind].
  set (pts := List.filter (fun p => is_none (pos_of gb p)) (points n)).
  assert (Hpts : forall p, p ∈ pts -> on n p /\ pos_of gb p = None).
  { intros p Hp. apply elem_of_lfilter in Hp as [H1 H2]. apply elem_of_points in H1. destruct (pos_of gb p); [discriminate|auto]. }
  rewrite (filterM_ok _ (fun p => eye n (pos_of gb) Black p || eye n (pos_of gb) White p)).
  2:{ intros p Hp. destruct (Hpts p Hp) as [On _]. rewrite !(check_eye_ok dbg n g p _ W On). cbn [bind]. fold gb. destruct (eye n (pos_of gb) Black p); reflexivity. }
  cbn [bind]. set (eyes := List.filter _ pts).
  assert (Heyes : forall p, p ∈ eyes <-> on n p /\ some_eye n g p).
  { intros p. unfold eyes. rewrite elem_of_lfilter. unfold pts. rewrite elem_of_lfilter, elem_of_points. unfold some_eye.
    change (position g) with (pos_of gb). assert (Hn : (n <= 19)%nat) by (pose proof (wf_n n _ W); lia). split.
    - intros [[On _] H]. split; [exact On|]. apply orb_true_iff in H as [H|H]; [left|right]; apply (eye_iff n (pos_of gb) _ Hn p On); exact H.
    - intros [On H]. split.
      + split; [exact On|]. destruct H as [[-> _]|[-> _]]; reflexivity.
      + apply orb_true_iff. destruct H as [H|H]; [left|right]; apply (eye_iff n (pos_of gb) _ Hn p On); exact H. }
  assert (Nde : NoDup eyes) by (apply NoDup_lfilter, NoDup_lfilter, NoDup_points).
  assert (F : forall es m, (forall p, p ∈ es -> on n p) -> NoDup es -> NoDup m.*1 ->
    exists m', foldM (fun m p => let! l := get_connected_groups_idx dbg gb (two_to_1dim (gsize gb) p) in Ok (fold_left (fun m k => bump k m) l m)) es m = Ok m' /\
      NoDup m'.*1 /\ forall k, exists ps, NoDup ps /\ (forall p, p ∈ ps <-> p ∈ es /\ near_group n gb k p) /\ tally k m' = (tally k m + length ps)%nat).
  { induction es as [|p es IH]; intros m Hes Nd Ndm; cbn [foldM].
    { exists m. split; [reflexivity|]. split; [exact Ndm|]. intros k. exists []. split; [constructor|]. split; [|cbn; lia].
      intros p. split; [intros H; inversion H|intros [H _]; inversion H]. }
    assert (On : on n p) by (apply Hes; left). apply NoDup_cons in Nd as [Hp Nd].
    destruct (connected_spec dbg n gb (idx n p) (wf_n n gb W) (wf_size n gb W) (wf0_board gb (wf_0 n gb W)) (idx_on n p On)) as (l & El & Ndl & Hl).
    replace (two_to_1dim (gsize gb) p) with (idx n p) by (rewrite (wf_size n gb W); reflexivity). rewrite El. cbn [bind].
    destruct (bump_all l m Ndm) as [Nd1 T1]. destruct (IH _ (fun q Hq => Hes q ltac:(right; exact Hq)) Nd Nd1) as (m' & E' & Nd' & T').
    exists m'. split; [exact E'|]. split; [exact Nd'|]. intros k. destruct (T' k) as (ps & N1 & N2 & N3).
    assert (Hk : k ∈ l <-> near_group n gb k p).
    { rewrite Hl. unfold near_group. split.
      - intros (j & Hj & Hc). apply (proj1 (elem_of_nb_idx n p j On)) in Hj as (q & Hq1 & Hq2 & ->). exists q. split; [exact Hq1|]. split; [exact Hq2|]. rewrite (group_no_cell n gb q W). exact Hc.
      - intros (q & Hq1 & Hq2 & Hq3). exists (idx n q). split; [apply (proj2 (elem_of_nb_idx n p _ On)); eauto|]. rewrite (group_no_cell n gb q W) in Hq3. exact Hq3. }
    rewrite N3, T1, (once k l Ndl). destruct (decide (k ∈ l)) as [Hin|Hin].
    - exists (p :: ps). split; [constructor; [intros H; apply N2 in H; tauto|exact N1]|]. split; [|cbn; lia].
      intros q. rewrite !elem_of_cons, N2. apply Hk in Hin. split; [intros [->|[]]; auto|intros [[->|] ?]; auto].
    - exists ps. split; [exact N1|]. split; [|lia]. intros q. rewrite elem_of_cons, N2. split; [tauto|]. intros [[->|] ?]; [tauto|auto]. }
  destruct (F eyes [] (fun p Hp => proj1 (proj1 (Heyes p) Hp)) Nde ltac:(constructor)) as (m & Em & Ndm & Tm).
  fold gb. rewrite Em. cbn [bind]. eexists. split; [reflexivity|]. split.
  { generalize (seq 0 (length (all_chains gb))) (sorted_seq (length (all_chains gb)) 0%nat). intros l S.
    induction S as [|x l S IH Fx]; cbn; [constructor|]. destruct (mem _ _); [|exact IH]. constructor; [exact IH|].
    apply Forall_forall. intros y Hy. apply elem_of_lfilter in Hy as [Hy _]. rewrite Forall_forall in Fx. exact (Fx y Hy). }
  intros i. rewrite elem_of_lfilter, elem_of_seq. unfold mem. rewrite existsb_spec.
  assert (K : (exists x, x ∈ List.map fst (List.filter (fun '(_, v) => (2 <=? v)%nat) m) /\ (i =? x)%nat = true) <-> (3 <= tally i m)%nat).
  { split.
    - intros (x & Hx & Ex). apply Nat.eqb_eq in Ex. subst x. apply elem_of_lmap in Hx as ([k v] & -> & Hv). apply elem_of_lfilter in Hv as [Hv H2].
      apply (tally_elem _ _ _ Ndm) in Hv. cbn. rewrite Hv. apply Nat.leb_le in H2. lia.
    - intros H. exists i. split; [|apply Nat.eqb_refl]. apply elem_of_lmap. exists (i, pred (tally i m)). split; [reflexivity|]. apply elem_of_lfilter. split.
      + apply tally_elem; [exact Ndm|]. lia.
      + apply Nat.leb_le. lia. }
  rewrite K. destruct (Tm i) as (ps & N1 & N2 & N3). cbn in N3. rewrite N3.
  assert (C : forall k, card (fun p => on n p /\ some_eye n g p /\ near_group n gb i p) k <-> k = length ps).
  { intros k. split.
    - intros (ps' & M1 & M2 & <-). apply Permutation_length, NoDup_Permutation; [exact M1|exact N1|]. intros p. rewrite M2, N2, Heyes. tauto.
    - intros ->. exists ps. split; [exact N1|]. split; [|reflexivity]. intros p. rewrite N2, Heyes. tauto. }
  split.
  - intros [H1 H2]. split; [lia|]. exists (length ps). split; [exact H2|]. apply C. reflexivity.
  - intros (H1 & k & H2 & H3). apply C in H3 as ->. split; [lia|exact H2].
Qed.
