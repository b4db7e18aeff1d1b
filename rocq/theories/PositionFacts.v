(** Which positions legal games reach: exactly those where every chain has a liberty. *)
From stdpp Require Import relations.
From Verif Require Import AreaSpec VerdictSpec TableSpec.
From Verif Require Import MonadFacts Struct Push Inv Bridge GameFacts RulesFacts BoardFacts LegalFacts LegalsFacts ClaimFacts VerdictFacts TableFacts AreaFacts CaseFacts.
From Coq Require Import Lia.

Local Notation length := Datatypes.length.
Open Scope nat_scope.

(** removing stones leaves every chain a liberty *)
Lemma sub_breathes n P Q : (forall q, on n q -> Q q <> None -> Q q = P q) -> all_breathe n P -> all_breathe n Q.
Proof.
  intros S HP p Hp Ep. assert (EP : P p <> None) by (rewrite <- (S p Hp Ep); exact Ep).
  destruct (HP p Hp EP) as (l & Hl & El & q & C & A). revert Hp Ep EP. induction C as [q|a b d St C IH]; intros Hp Ep EP.
  - exists l. split; [exact Hl|]. split; [|exists q; split; [apply rtc_refl|exact A]].
    destruct (Q l) eqn:E; [|reflexivity]. rewrite S in E; congruence.
  - destruct St as (Ha & Hb & A' & E). destruct (Q b) as [cb|] eqn:Eb.
    + destruct (IH A Hb) as (l' & Hl' & El' & q' & C' & A''); [congruence|rewrite <- (S b Hb); congruence|].
      exists l'. split; [exact Hl'|]. split; [exact El'|]. exists q'. split; [|exact A''].
      eapply rtc_l; [|exact C']. split; [exact Ha|]. split; [exact Hb|]. split; [exact A'|].
      rewrite (S a Ha Ep), (S b Hb); [exact E|congruence].
    + exists b. split; [exact Hb|]. split; [exact Eb|]. exists a. split; [apply rtc_refl|exact A'].
Qed.

(** a stone after which every chain has a liberty is accepted and captures nothing *)
Lemma quiet_stone dbg n b w g x y : greach dbg n b w g -> (N.of_nat (b + w) < 65535)%N -> on n (x, y) -> position g (x, y) = None ->
  gm_passes g <> 2 -> gm_ko_point g = None -> forbids_fill_eye (gm_rule g) = false ->
  all_breathe n (put (position g) (x, y) (gm_turn g)) ->
  exists g', try_play dbg g (MPlay x y) = Ok (g', Accepted) /\ gm_rule g' = gm_rule g /\ gm_passes g' = 0 /\ gm_ko_point g' = None /\
    gm_turn g' = opp (gm_turn g) /\ same_pos n (position g') (put (position g) (x, y) (gm_turn g)) /\
    greach dbg n (fst (bump_count (gm_turn g) (b, w))) (snd (bump_count (gm_turn g) (b, w))) g'.
Proof.
  intros HG L Hp He Hpass Hko Hfe HB. set (P := position g) in *. set (c := gm_turn g) in *. set (p := (x, y)) in *.
  assert (NT : forall q, on n q -> ~ taken n (put P p c) p c q).
  { intros q Hq (t & Ht & A & Et & _ & N). apply N. apply HB; [exact Ht|congruence]. }
  assert (NC : ~ captures n P p c) by (intros (q & Hq & T); exact (NT q Hq T)).
  assert (NS : ~ suicidal n P p c).
  { intros (Q & C & N). apply N. assert (S : same_pos n Q (put P p c)).
    { intros q Hq. destruct (C q Hq) as [_ B]. apply B, NT, Hq. }
    apply (breathes_ext n Q _ p S). apply HB; [exact Hp|]. unfold put. rewrite decide_True by reflexivity. discriminate. }
  assert (J : judged n (flag_illegal (gm_rule g)) (table_of g) (x, y) Accepted).
  { unfold judged, reasons, point_reasons. cbn [first_reason]. cbn [table_of t_pos t_turn t_passes t_ko].
    repeat constructor; cbn [snd].
    - exact Hpass.
    - intros F. exact (F He).
    - intros [_ F]. exact (NS F).
    - intros [_ [F _]]. cbn [t_ko table_of] in F. congruence.
    - intros [F _]. unfold no_fill_eye in F. unfold forbids_fill_eye in Hfe. congruence.
    - intros [_ (_ & F & _)]. exact (NC F). }
  destruct (proj2 (verdict_exact dbg n b w g x y Accepted HG Hp (few_stones _ _ _ _ _ HG L)) J) as [g' E].
  destruct (stone_sim dbg n b w g x y HG Hp He L) as (g1 & E1 & R1 & S1 & G1).
  destruct (try_play_inv _ _ _ _ _ E) as [(e & F & _)|(_ & _ & E')]; [discriminate|]. rewrite E1 in E'. injection E' as ->.
  exists g'. split; [exact E|]. split; [exact R1|]. split; [exact (ss_passes _ _ _ _ _ S1)|]. split.
  { destruct (gm_ko_point g') as [q|] eqn:Ek; [|reflexivity]. exfalso.
    destruct (proj1 (ss_ko _ _ _ _ _ S1 q) Ek) as (Hq & T & _). exact (NT q Hq T). }
  split; [exact (ss_turn _ _ _ _ _ S1)|]. split; [|exact G1].
  destruct (ss_pos _ _ _ _ _ S1) as (Q & C1 & C2). cbn [table_of t_pos t_turn] in C1, C2. change (position g) with P in C1. change (gm_turn g) with c in C1.
  assert (S : same_pos n Q (put P p c)). { intros q Hq. destruct (C1 q Hq) as [_ B]. apply B, NT, Hq. }
  intros q Hq. destruct (C2 q Hq) as [_ B]. rewrite B; [apply S, Hq|]. intros (_ & F & _). apply F.
  apply (breathes_ext n Q _ p S). apply HB; [exact Hp|]. unfold put. rewrite decide_True by reflexivity. discriminate.
Qed.

(** the stones of [P] on the points of [l] *)
Definition part (P : pos) (l : list coord) : pos := fun q => if decide (q ∈ l) then P q else None.

Lemma build_up dbg n r P : (N.of_nat (n * n) < 65535)%N -> forbids_fill_eye r = false -> all_breathe n P ->
  forall l, NoDup l -> (forall p, p ∈ l -> on n p /\ P p <> None) ->
  forall g0, greach dbg n 0 0 g0 -> gm_rule g0 = r -> gm_passes g0 = 0 -> gm_ko_point g0 = None -> (forall q, on n q -> position g0 q = None) ->
  exists ms g b w, all_accepted dbg g0 ms g /\ Forall (plain n) ms /\ length ms <= 2 * length l /\
    greach dbg n b w g /\ b + w = length l /\ gm_rule g = r /\ gm_passes g = 0 /\ gm_ko_point g = None /\ same_pos n (position g) (part P l).
Proof.
  intros Hn Hr HP. induction l as [|[x y] l IH]; intros ND HL g0 H0 R0 P0 K0 E0.
  - exists [], g0, 0, 0. split; [reflexivity|]. split; [constructor|]. split; [cbn; lia|]. split; [exact H0|]. repeat (split; [assumption || reflexivity|]).
    intros q Hq. rewrite E0 by exact Hq. unfold part. rewrite decide_False; [reflexivity|apply not_elem_of_nil].
  - apply NoDup_cons in ND. destruct ND as [Nx ND].
    destruct (IH ND ltac:(intros p Hp; apply HL, elem_of_list_further, Hp) g0 H0 R0 P0 K0 E0) as (ms & g & b & w & A & F & L & HG & BW & R & Pa & K & SG).
    destruct (HL (x, y) (elem_of_list_here _ _)) as [Hon Hne]. destruct (P (x, y)) as [c|] eqn:Ec; [|contradiction].
    assert (LL : length l < n * n).
    { assert (IL : length ((x, y) :: l) <= length (points n)).
      { apply submseteq_length, NoDup_submseteq; [apply NoDup_cons; auto|]. intros p Hp. apply elem_of_points. apply HL, Hp. }
      rewrite points_length in IL. cbn [Datatypes.length] in IL. exact IL. }
    assert (He : position g (x, y) = None).
    { rewrite (SG _ Hon). unfold part. rewrite decide_False; [reflexivity|exact Nx]. }
    assert (SP : forall Q, same_pos n Q (part P l) -> all_breathe n (put Q (x, y) c) /\ same_pos n (put Q (x, y) c) (part P ((x, y) :: l))).
    { intros Q SQ.
      assert (S2 : same_pos n (put Q (x, y) c) (part P ((x, y) :: l))).
      { intros q Hq. unfold put, part. case_decide as D.
        - subst q. rewrite decide_True by apply elem_of_list_here. symmetry. exact Ec.
        - rewrite (SQ q Hq). unfold part. destruct (decide (q ∈ l)) as [I|I].
          + rewrite decide_True; [reflexivity|apply elem_of_list_further, I].
          + rewrite decide_False; [reflexivity|]. intros I'. apply elem_of_cons in I'. tauto. }
      split; [|exact S2]. apply (sub_breathes n P); [|exact HP]. intros q Hq Ne. rewrite (S2 q Hq) in *. unfold part in *. case_decide; [reflexivity|contradiction]. }
    destruct (decide (gm_turn g = c)) as [T|T].
    + destruct (SP _ SG) as [B1 B2].
      destruct (quiet_stone dbg n b w g x y HG ltac:(lia) Hon He ltac:(lia) K ltac:(congruence) ltac:(rewrite T; exact B1)) as (g' & E & R' & P' & K' & _ & S' & G').
      exists (ms ++ [MPlay x y]), g', (fst (bump_count (gm_turn g) (b, w))), (snd (bump_count (gm_turn g) (b, w))).
      split; [|split; [|split; [|split; [exact G'|split; [|]]]]].
      * clear -A E. revert g0 A. induction ms as [|m ms IH]; intros g0 A; cbn in *; [subst; eauto|]. destruct A as (g1 & E1 & A). exists g1. split; [exact E1|]. apply IH, A.
      * apply Forall_app. split; [exact F|]. constructor; [exact Hon|constructor].
      * rewrite app_length. cbn. lia.
      * rewrite bump_total. cbn. lia.
      * split; [congruence|]. split; [exact P'|]. split; [exact K'|]. rewrite T in S'. eapply same_pos_trans; [exact S'|exact B2].
    + assert (EP : try_play dbg g MPass = Ok (mkGame (gm_goban g) (S (gm_passes g)) (gm_prisoners g) (gm_outcome g) (opp (gm_turn g)) (gm_rule g) (gm_handicap g) (gm_history g) None, Accepted)).
      { unfold try_play. rewrite Pa. cbn [Nat.eqb play Nat.ltb Nat.leb assert_ bind]. rewrite Pa. reflexivity. }
      set (h := mkGame _ _ _ _ _ _ _ _ _) in EP.
      assert (HGh : greach dbg n b w h).
      { destruct (try_play_inv _ _ _ _ _ EP) as [(e & Fa & _)|(_ & _ & E')]; [discriminate|]. eapply gr_pass; eassumption. }
      assert (Th : gm_turn h = c) by (unfold h; cbn; destruct c, (gm_turn g); try reflexivity; contradict T; reflexivity).
      change (position g) with (position h) in SG. destruct (SP _ SG) as [B1 B2].
      destruct (quiet_stone dbg n b w h x y HGh ltac:(lia) Hon He ltac:(unfold h; cbn; lia) eq_refl ltac:(unfold h; cbn; congruence) ltac:(rewrite Th; exact B1)) as (g' & E & R' & P' & K' & _ & S' & G').
      exists (ms ++ [MPass; MPlay x y]), g', (fst (bump_count (gm_turn h) (b, w))), (snd (bump_count (gm_turn h) (b, w))).
      split; [|split; [|split; [|split; [exact G'|split; [|]]]]].
      * clear -A E EP. revert g0 A. induction ms as [|m ms IH]; intros g0 A; cbn in *; [subst; eauto|]. destruct A as (g1 & E1 & A). exists g1. split; [exact E1|]. apply IH, A.
      * apply Forall_app. split; [exact F|]. constructor; [exact I|]. constructor; [exact Hon|constructor].
      * rewrite app_length. cbn. lia.
      * rewrite bump_total. cbn. lia.
      * split; [unfold h in R'; cbn in R'; congruence|]. split; [exact P'|]. split; [exact K'|]. rewrite Th in S'. eapply same_pos_trans; [exact S'|exact B2].
Qed.

Lemma accepted_lreach dbg n ms : forall g g', lreach dbg n g -> Forall (plain n) ms -> all_accepted dbg g ms g' -> lreach dbg n g'.
Proof.
  induction ms as [|m ms IH]; intros g g' HG F A; cbn in A; [subst; exact HG|].
  apply Forall_cons in F. destruct F as [Fm F]. destruct A as (g1 & E & A). apply (IH g1); [|exact F|exact A].
  destruct m as [|c|x y]; [eapply lr_pass; eassumption|contradiction|eapply lr_play; eassumption].
Qed.

Theorem legal_positions dbg n s r g0 P : (1 <= n) -> size_of s = (n, n) -> game_new s r = Ok g0 -> forbids_fill_eye r = false ->
  all_breathe n P <->
  exists ms g, Forall (plain n) ms /\ length ms <= 2 * (n * n) /\ all_accepted dbg g0 ms g /\ same_pos n (position g) P.
Proof.
  intros Hn Hs E0 Hr.
  assert (HL0 : lreach dbg n g0) by (eapply lr_new; eassumption).
  assert (HG0 : greach dbg n 0 0 g0) by (eapply gr_new; eassumption).
  pose proof (greach_le _ _ _ _ _ HG0) as N19.
  destruct (start_table dbg n s r g0 Hn Hs E0) as [ST _].
  split.
  - intros HB.
    assert (R0 : gm_rule g0 = r) by (unfold game_new in E0; destruct (goban_new _); try discriminate; cbn in E0; injection E0 as <-; reflexivity).
    destruct (build_up dbg n r P ltac:(nia) Hr HB (filter (fun p => P p <> None) (points n))
       ltac:(apply NoDup_filter, NoDup_points) ltac:(intros p Hp; apply elem_of_list_filter in Hp; rewrite elem_of_points in Hp; tauto)
       g0 HG0 R0 (sa_passes _ _ _ ST) (sa_ko _ _ _ ST) (sa_pos _ _ _ ST)) as (ms & g & b & w & A & F & L & _ & _ & _ & _ & _ & S).
    exists ms, g. split; [exact F|]. split.
    { etransitivity; [exact L|]. apply Nat.mul_le_mono_l. rewrite <- points_length. apply filter_length. }
    split; [exact A|]. eapply same_pos_trans; [exact S|]. intros q Hq. unfold part. case_decide as D; [reflexivity|].
    destruct (P q) eqn:E; [|reflexivity]. exfalso. apply D. apply elem_of_list_filter. rewrite elem_of_points. split; [congruence|exact Hq].
  - intros (ms & g & F & _ & A & S). pose proof (accepted_lreach _ _ _ _ _ HL0 F A) as HL.
    destruct (lreach_inv _ _ _ HL) as [HB _]. intros p Hp Ep. change (pos_of (gm_goban g)) with (position g) in HB.
    apply (breathes_ext n (position g) P p S). apply HB; [exact Hp|]. rewrite (S p Hp). exact Ep.
Qed.
