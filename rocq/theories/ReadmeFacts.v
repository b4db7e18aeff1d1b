(** The README example: open points can be played, the loop reaches its end. *)
From stdpp Require Import relations sorting.
From Verif Require Import Readme ReadmeSpec VerdictSpec TableSpec.
From Verif Require Import Struct Push Inv Bridge MonadFacts BoardFacts GameFacts KoFacts LegalFacts LegalsFacts ClaimFacts PropFacts RulesFacts VerdictFacts TableFacts CaseFacts ViewFacts PerftClaims.
From Coq Require Import Lia.

Local Notation length := Datatypes.length.

(** the ko point of a legal game touches the stone that captured there *)
Lemma ko_touches dbg n g q : lreach dbg n g -> gm_ko_point g = Some q -> exists p, on n p /\ adj q p /\ position g p <> None.
Proof.
  intros HL E. destruct (proj2 (lreach_inv dbg n g HL) q E) as (P0 & p & _ & _ & _ & Hp & He & _ & HC & Hq & (t & Ht & At & Et & Hc & HB) & Ho).
  assert (t = q) as ->. { apply (Ho t Ht). exists t. split; [exact Ht|]. split; [exact At|]. split; [exact Et|]. split; [apply rtc_refl|exact HB]. }
  exists p. split; [exact Hp|]. split; [apply adj_sym, At|]. unfold position. rewrite (left_own n P0 p _ _ p HC Hp); [discriminate|apply put_here].
Qed.

(** C95 *)
Theorem open_accepted dbg n g x y : (2 <= n)%nat -> lreach dbg n g -> ~ no_slot_left g -> gm_passes g <> 2%nat ->
  open_point n (position g) (x, y) -> exists g', try_play dbg g (MPlay x y) = Ok (g', Accepted).
Proof.
  intros Hn HL HS HP (Hp & He & Ha). destruct (lreach_greach dbg n g HL) as (b & w & HG).
  assert (HT : forall c q, ~ taken n (put (position g) (x, y) c) (x, y) c q).
  { intros c q (t & Ht & At & Et & _). rewrite put_other in Et by (apply adj_ne, At). rewrite (Ha t Ht At) in Et. discriminate Et. }
  destruct (other_neighbour n (x, y) (x, y) Hn Hp) as (u & Hu & Au & _).
  assert (HB0 : forall c Q, cleared n (taken n (put (position g) (x, y) c) (x, y) c) (put (position g) (x, y) c) Q -> breathes n Q (x, y)).
  { intros c Q HQ. exists u. split; [exact Hu|]. split; [|exists (x, y); split; [apply rtc_refl|exact Au]].
    apply (left_empty n _ (x, y) c Q u HQ Hu). rewrite put_other by (apply adj_ne, Au). exact (Ha u Hu Au). }
  assert (HK : gm_ko_point g <> Some (x, y)). { intros E. destruct (ko_touches dbg n g _ HL E) as (p & Hp' & Ap & Np). exact (Np (Ha p Hp' Ap)). }
  apply (verdict_exact dbg n b w g x y Accepted HG Hp HS). unfold judged, first_reason, reasons, point_reasons.
  cbn [table_of t_passes t_pos t_turn t_ko t_seen]. rewrite !Forall_cons. cbn [snd].
  split; [exact HP|]. split; [intros H; apply H, He|].
  split; [intros [_ (Q & HQ & HN)]; exact (HN (HB0 _ Q HQ))|].
  split; [intros [_ [H _]]; exact (HK H)|].
  split; [|split; [|constructor]].
  - intros [_ (_ & H & _)]. pose proof (H u Hu Au) as E. rewrite (Ha u Hu Au) in E. discriminate E.
  - intros [_ (_ & (q & _ & T) & _)]. exact (HT _ q T).
Qed.

(** a point and the points next to it *)
Definition around (p : coord) : list coord :=
  [p; (S (fst p), snd p); ((fst p - 1)%nat, snd p); (fst p, S (snd p)); (fst p, (snd p - 1)%nat)].

Lemma around_adj p q : adj q p -> q ∈ around p.
Proof.
  destruct p as [x y], q as [x' y']. unfold adj, around. cbn [fst snd]. rewrite !elem_of_cons.
  intros [[-> [->| ->]]|[-> [->| ->]]]; cbn [Nat.sub]; rewrite ?Nat.sub_0_r; tauto.
Qed.

Lemma count_both n P : length (List.filter (fun p => match P p with Some _ => true | None => false end) (points n)) = (count n P Black + count n P White)%nat.
Proof.
  unfold count. induction (points n) as [|p l IH]; [reflexivity|]. cbn [List.filter]. rewrite !filter_cons.
  destruct (P p) as [[]|] eqn:E; repeat case_decide; try congruence; cbn [length]; lia.
Qed.

Lemma some_open n P : (5 * (count n P Black + count n P White) < n * n)%nat -> exists p, open_point n P p.
Proof.
  intros L. destruct (decide (Exists (fun p => P p = None /\ Forall (fun q => adj p q -> P q = None) (points n)) (points n))) as [H|H].
  { apply Exists_exists in H as (p & Hp & He & Ha). exists p. rewrite Forall_forall in Ha. split; [apply elem_of_points, Hp|]. split; [exact He|]. intros q Hq. apply Ha, elem_of_points, Hq. }
  exfalso. set (St := List.filter (fun p => match P p with Some _ => true | None => false end) (points n)).
  assert (HSt : forall q, on n q -> P q <> None -> q ∈ St).
  { intros q Hq Ne. apply elem_of_list_In, filter_In. split; [apply elem_of_list_In, elem_of_points, Hq|]. destruct (P q); [reflexivity|contradiction]. }
  assert (HI : incl (points n) (flat_map around St)).
  { intros p Hp. apply elem_of_list_In in Hp. apply in_flat_map. destruct (P p) as [c|] eqn:Ep.
    - exists p. split; [apply elem_of_list_In, HSt; [apply elem_of_points, Hp|congruence]|left; reflexivity].
    - destruct (decide (Exists (fun q => adj p q /\ P q <> None) (points n))) as [HE|HE].
      + apply Exists_exists in HE as (q & Hq & Aq & Nq). exists q. split; [apply elem_of_list_In, HSt; [apply elem_of_points, Hq|exact Nq]|apply elem_of_list_In, around_adj, Aq].
      + exfalso. apply H, Exists_exists. exists p. split; [exact Hp|]. split; [exact Ep|]. apply Forall_forall. intros q Hq Aq.
        destruct (P q) eqn:Eq; [|reflexivity]. exfalso. apply HE, Exists_exists. exists q. split; [exact Hq|]. split; [exact Aq|congruence]. }
  apply (NoDup_incl_length (proj1 (NoDup_ListNoDup _) (NoDup_points n))) in HI. rewrite points_length in HI.
  assert (E : length (flat_map around St) = (5 * length St)%nat).
  { clear. induction St as [|p l IH]; [reflexivity|]. cbn [flat_map]. rewrite app_length, IH. cbn [around length]. lia. }
  rewrite E in HI. unfold St in HI. rewrite count_both in HI. lia.
Qed.

(** C95 *)
Theorem roomy_has_legal dbg n g : (2 <= n)%nat -> lreach dbg n g -> ~ no_slot_left g -> gm_passes g <> 2%nat ->
  (5 * (count n (position g) Black + count n (position g) White) < n * n)%nat ->
  exists x y l g', open_point n (position g) (x, y) /\ legals dbg g = Ok l /\ (x, y) ∈ l /\ try_play dbg g (MPlay x y) = Ok (g', Accepted).
Proof.
  intros Hn HL HS HP L. destruct (some_open n _ L) as ([x y] & HO). destruct (open_accepted dbg n g x y Hn HL HS HP HO) as (g' & E).
  destruct (lreach_greach dbg n g HL) as (b & w & HG). destruct (claim_legals dbg n b w g HG HS HP) as (l & El & _ & Hl & _).
  exists x, y, l, g'. split; [exact HO|]. split; [exact El|]. split; [|exact E]. apply Hl. split; [apply HO|]. eauto.
Qed.

(** the state of the loop after [k] moves *)
Record running (dbg : bool) (n k : nat) (g : game) : Prop := mkRunning {
  ru_reach : exists b w, greach dbg n b w g /\ (b + w = k)%nat;
  ru_legal : lreach dbg n g;
  ru_passes : gm_passes g = 0%nat;
  ru_outcome : gm_outcome g = None
}.

Lemma running_over dbg n k g : running dbg n k g -> is_over g = false.
Proof. intros R. unfold is_over. rewrite (ru_outcome _ _ _ _ R), (ru_passes _ _ _ _ R). reflexivity. Qed.

Lemma running_next dbg n k g x y g' : running dbg n k g -> (N.of_nat k < 65535)%N -> on n (x, y) -> try_play dbg g (MPlay x y) = Ok (g', Accepted) ->
  play dbg g (MPlay x y) = Ok g' /\ running dbg n (S k) g'.
Proof.
  intros [(b & w & HG & Hk) HL HP HO] L Hp Et. pose proof (greach_inv _ _ _ _ _ HG) as G.
  destruct (accepted_empty dbg n g x y g' (gi_wf _ _ _ _ G) (gi_hist _ _ _ _ G) Hp Et) as (He & _ & _ & Ep).
  destruct (stone_sim dbg n b w g x y HG Hp He ltac:(lia)) as (g2 & Ep2 & _ & St & HG2). assert (g2 = g') as -> by congruence.
  split; [exact Ep|]. constructor.
  - eexists _, _. split; [exact HG2|]. rewrite bump_total. lia.
  - exact (lr_play dbg n g x y g' HL Hp Et).
  - exact (ss_passes _ _ _ _ _ St).
  - rewrite <- HO. exact (ss_outcome _ _ _ _ _ St).
Qed.

Lemma loop_next order choose dbg n k j g l x y g' : running dbg n k g -> (N.of_nat k < 65535)%N -> legals dbg g = Ok l -> choose (S j) l = Some (x, y) -> on n (x, y) ->
  try_play dbg g (MPlay x y) = Ok (g', Accepted) -> readme_loop (S j) choose order dbg g = readme_loop j choose order dbg g' /\ running dbg n (S k) g'.
Proof.
  intros R L El Ec Hp Et. destruct (running_next dbg n k g x y g' R L Hp Et) as [Ep R']. split; [|exact R'].
  cbn [readme_loop]. rewrite (running_over _ _ _ _ R), El. cbn [bind]. rewrite Ec. cbn [fst snd]. rewrite Ep. cbn [bind].
  destruct (ru_reach _ _ _ _ R') as (b & w & HG & _). pose proof (gi_wf _ _ _ _ (greach_inv _ _ _ _ _ HG)) as W.
  unfold goban_display. destruct (pretty_rows n _ W) as (rows & -> & _). cbn [bind].
  unfold outcome at 1. rewrite (running_over _ _ _ _ R'). cbn [negb bind]. rewrite (to_vec_ok n _ W). reflexivity.
Qed.

Lemma loop_runs order choose dbg n i : (2 <= n)%nat -> chooses choose -> forall k g, running dbg n k g -> (5 * (k + i) < n * n + 5)%nat ->
  exists ps g', readme_loop i choose order dbg g = Ok g' /\ length ps = i /\ stones_accepted dbg n g ps g' /\ running dbg n (k + i) g'.
Proof.
  intros Hn HC. induction i as [|i IH]; intros k g R L.
  - exists [], g. cbn [readme_loop]. rewrite (running_over _ _ _ _ R). split; [reflexivity|]. split; [reflexivity|]. split; [split; [constructor|reflexivity]|]. rewrite Nat.add_0_r. exact R.
  - destruct (ru_reach _ _ _ _ R) as (b & w & HG & Hk). pose proof (greach_le _ _ _ _ _ HG) as Hle. assert (Lk : (N.of_nat k < 65535)%N) by nia.
    assert (HS : ~ no_slot_left g) by (apply (few_stones dbg n b w g HG); lia).
    assert (HP : gm_passes g <> 2%nat) by (rewrite (ru_passes _ _ _ _ R); discriminate).
    pose proof (claim_prisoners dbg n b w g HG) as [HB HW].
    destruct (roomy_has_legal dbg n g Hn (ru_legal _ _ _ _ R) HS HP ltac:(lia)) as (x & y & l & g1 & _ & El & Hin & _).
    destruct (claim_legals dbg n b w g HG HS HP) as (l' & El' & _ & Hl & _). assert (l' = l) as -> by congruence.
    pose proof (HC (S i) l) as Hc. destruct (choose (S i) l) as [[x' y']|] eqn:Ec; [|rewrite Hc in Hin; inversion Hin].
    apply Hl in Hc as (Hp & g2 & Et). destruct (loop_next order choose dbg n k i g l x' y' g2 R Lk El Ec Hp Et) as [-> R2].
    destruct (IH (S k) g2 R2 ltac:(lia)) as (ps & g' & E & Lp & (HF & HA) & R3). exists ((x', y') :: ps), g'.
    split; [exact E|]. split; [cbn; f_equal; exact Lp|]. split; [split; [constructor; assumption|exists g2; split; assumption]|].
    replace (k + S i)%nat with (S k + i)%nat by lia. exact R3.
Qed.

(** a choice that follows the given points *)
Definition follow (m : nat) (ps : list coord) (k : nat) (l : list coord) : option coord :=
  match ps !! (m - k)%nat with
  | Some p => if decide (p ∈ l) then Some p else head l
  | None => head l
  end.

Lemma follow_chooses m ps : chooses (follow m ps).
Proof.
  intros k l. unfold follow. assert (H : match head l with Some p => p ∈ l | None => l = [] end) by (destruct l; [reflexivity|left]).
  destruct (ps !! (m - k)%nat) as [p|]; [|exact H]. destruct (decide (p ∈ l)) as [Hp|]; [exact Hp|exact H].
Qed.

Lemma loop_follows order dbg n m ps j : forall done k g g', running dbg n k g -> (N.of_nat (k + length ps) <= 65535)%N -> m = (length done + length ps + j)%nat -> stones_accepted dbg n g ps g' ->
  readme_loop (length ps + j) (follow m (done ++ ps)) order dbg g = readme_loop j (follow m (done ++ ps)) order dbg g' /\ running dbg n (k + length ps) g'.
Proof.
  induction ps as [|[x y] ps IH]; intros done k g g' R L Em (HF & HA); cbn [List.map all_accepted length fst snd] in *.
  - subst g'. rewrite Nat.add_0_r. auto.
  - destruct HA as (g1 & Et & HA). apply Forall_cons in HF as [Hp HF].
    destruct (ru_reach _ _ _ _ R) as (b & w & HG & Hk).
    assert (HS : ~ no_slot_left g) by (apply (few_stones dbg n b w g HG); lia).
    assert (HP : gm_passes g <> 2%nat) by (rewrite (ru_passes _ _ _ _ R); discriminate).
    destruct (claim_legals dbg n b w g HG HS HP) as (l & El & _ & Hl & _).
    assert (Ec : follow m (done ++ (x, y) :: ps) (S (length ps + j)) l = Some (x, y)).
    { unfold follow. replace (m - S (length ps + j))%nat with (length done) by lia. rewrite list_lookup_middle by reflexivity.
      rewrite decide_True; [reflexivity|]. apply Hl. split; [exact Hp|]. exists g1. exact Et. }
    destruct (loop_next order (follow m (done ++ (x, y) :: ps)) dbg n k (length ps + j) g l x y g1 R ltac:(lia) El Ec Hp Et) as [E1 R1].
    assert (Ed : done ++ (x, y) :: ps = (done ++ [(x, y)]) ++ ps) by (rewrite <- app_assoc; reflexivity).
    destruct (IH (done ++ [(x, y)]) (S k) g1 g' R1 ltac:(lia) ltac:(rewrite app_length; cbn [length]; lia) (conj HF HA)) as [E2 R2]. rewrite <- Ed in E2.
    split; [etransitivity; [exact E1|exact E2]|]. replace (k + S (length ps))%nat with (S k + length ps)%nat by lia. exact R2.
Qed.

Lemma readme_built dbg : snd (build dbg (set_rule (set_size game_builder (19, 19)%nat) CHINESE)) = game_new Nineteen CHINESE.
Proof. destruct dbg; vm_compute; reflexivity. Qed.

Lemma running_start dbg g : game_new Nineteen CHINESE = Ok g -> running dbg 19 0 g.
Proof.
  intros E. destruct (start_table dbg 19 Nineteen CHINESE g ltac:(lia) eq_refl E) as [T HG]. constructor.
  - exists 0%nat, 0%nat. auto.
  - exact (lr_new dbg 19 Nineteen CHINESE g ltac:(lia) eq_refl E).
  - exact (sa_passes _ _ _ T).
  - exact (sa_outcome _ _ _ T).
Qed.

(** C95 *)
Theorem readme_runs i choose order dbg : (i <= 73)%nat -> chooses choose ->
  exists g ps g', game_new Nineteen CHINESE = Ok g /\ readme i choose order dbg = Ok g' /\ length ps = i /\ stones_accepted dbg 19 g ps g' /\ is_over g' = false /\
    (N.of_nat (count 19 (position g') Black + count 19 (position g') White) + fst (gm_prisoners g') + snd (gm_prisoners g') = N.of_nat i)%N.
Proof.
  intros Hi HC. unfold readme. rewrite readme_built. destruct (game_new Nineteen CHINESE) as [g| |] eqn:Eg; [|vm_compute in Eg; discriminate Eg..].
  destruct (loop_runs order choose dbg 19 i ltac:(lia) HC 0 g (running_start dbg g Eg) ltac:(lia)) as (ps & g' & E & L & HA & R).
  exists g, ps, g'. split; [reflexivity|]. split; [exact E|]. split; [exact L|]. split; [exact HA|]. split; [exact (running_over _ _ _ _ R)|].
  destruct (ru_reach _ _ _ _ R) as (b & w & HG & Hk). destruct (claim_prisoners dbg 19 b w g' HG). lia.
Qed.

(** C95 *)
Theorem readme_any_line ps order dbg g g' : (N.of_nat (length ps) <= 65535)%N -> game_new Nineteen CHINESE = Ok g -> stones_accepted dbg 19 g ps g' ->
  exists choose, chooses choose /\ readme (length ps) choose order dbg = Ok g'.
Proof.
  intros L Eg HA. exists (follow (length ps) ps). split; [apply follow_chooses|]. unfold readme. rewrite readme_built, Eg. cbn [bind].
  destruct (loop_follows order dbg 19 (length ps) ps 0 [] 0 g g' (running_start dbg g Eg) L ltac:(cbn; lia) HA) as [E R].
  rewrite Nat.add_0_r in E. cbn [app] in E. rewrite E. cbn [readme_loop]. rewrite (running_over _ _ _ _ R). reflexivity.
Qed.

Lemma readme_stuck ps j order dbg g g' : (N.of_nat (length ps) <= 65535)%N -> game_new Nineteen CHINESE = Ok g -> stones_accepted dbg 19 g ps g' -> legals dbg g' = Ok [] ->
  exists choose, chooses choose /\ readme (length ps + S j) choose order dbg = Panic.
Proof.
  intros L Eg HA El. set (m := (length ps + S j)%nat). exists (follow m ps). split; [apply follow_chooses|]. unfold readme. rewrite readme_built, Eg. cbn [bind].
  destruct (loop_follows order dbg 19 m ps (S j) [] 0 g g' (running_start dbg g Eg) L ltac:(reflexivity) HA) as [E R].
  cbn [app] in E. fold m in E. rewrite E. cbn [readme_loop]. rewrite (running_over _ _ _ _ R), El. cbn [bind].
  unfold follow. destruct (ps !! (m - S j)%nat) as [p|]; [|reflexivity]. rewrite decide_False by (intros H; inversion H). reflexivity.
Qed.

Lemma loop_ends order choose dbg n i : chooses choose -> forall k g, running dbg n k g -> (N.of_nat (k + i) <= 65535)%N ->
  exists ps g', stones_accepted dbg n g ps g' /\
    (length ps = i /\ readme_loop i choose order dbg g = Ok g' \/ (length ps < i)%nat /\ legals dbg g' = Ok [] /\ readme_loop i choose order dbg g = Panic).
Proof.
  intros HC. induction i as [|i IH]; intros k g R L.
  - exists [], g. split; [split; [constructor|reflexivity]|]. left. split; [reflexivity|]. cbn [readme_loop]. rewrite (running_over _ _ _ _ R). reflexivity.
  - destruct (ru_reach _ _ _ _ R) as (b & w & HG & Hk).
    assert (HS : ~ no_slot_left g) by (apply (few_stones dbg n b w g HG); lia).
    assert (HP : gm_passes g <> 2%nat) by (rewrite (ru_passes _ _ _ _ R); discriminate).
    destruct (claim_legals dbg n b w g HG HS HP) as (l & El & _ & Hl & _).
    pose proof (HC (S i) l) as Hc. destruct (choose (S i) l) as [[x y]|] eqn:Ec.
    + apply Hl in Hc as (Hp & g1 & Et). destruct (loop_next order choose dbg n k i g l x y g1 R ltac:(lia) El Ec Hp Et) as [E1 R1].
      destruct (IH (S k) g1 R1 ltac:(lia)) as (ps & g' & (HF & HA) & Hd). exists ((x, y) :: ps), g'.
      split; [split; [constructor; assumption|exists g1; split; assumption]|]. cbn [length]. rewrite E1.
      destruct Hd as [[E2 E3]|(E2 & E3 & E4)]; [left; split; [f_equal; exact E2|exact E3]|right; split; [lia|auto]].
    + subst l. exists [], g. split; [split; [constructor|reflexivity]|]. right. split; [cbn; lia|]. split; [exact El|].
      cbn [readme_loop]. rewrite (running_over _ _ _ _ R), El. cbn [bind]. rewrite Ec. reflexivity.
Qed.

(** C95 *)
Theorem readme_exact i choose order dbg : (N.of_nat i <= 65535)%N -> chooses choose ->
  exists g ps g', game_new Nineteen CHINESE = Ok g /\ stones_accepted dbg 19 g ps g' /\
    (length ps = i /\ readme i choose order dbg = Ok g' \/ (length ps < i)%nat /\ legals dbg g' = Ok [] /\ readme i choose order dbg = Panic).
Proof.
  intros Hi HC. unfold readme. rewrite readme_built. destruct (game_new Nineteen CHINESE) as [g| |] eqn:Eg; [|vm_compute in Eg; discriminate Eg..].
  destruct (loop_ends order choose dbg 19 i HC 0 g (running_start dbg g Eg) Hi) as (ps & g' & HA & H). exists g, ps, g'. auto.
Qed.
