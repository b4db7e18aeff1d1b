(** Which positions legal games reach on boards whose width divides their height. *)
From stdpp Require Import relations sorting.
From Verif Require Import MonadFacts Spec Game Builder BitsetFacts CoordFacts Struct Push Inv Remove Capture Bridge GameFacts RulesFacts KoFacts BoardFacts CheckFacts LegalFacts LegalsFacts ClaimFacts CaseFacts.
From Verif Require Import RectSpec RectReach RectCoord RectInv RectRemove RectCapture RectBridge RectGame RectReachFacts RectRules RectBoard RectCheck RectEye RectVerdict RectMoves RectKo RectLegal RectTableSpec RectTable RectEndSpec RectCases PositionFacts AreaSpec TableFacts VerdictFacts.
From Coq Require Import Lia.

Local Notation length := Datatypes.length.

Open Scope nat_scope.

(** removing stones leaves every chain a liberty *)
Lemma rsub_breathes n P Q : (forall q, ron n q -> Q q <> None -> Q q = P q) -> rall_breathe n P -> rall_breathe n Q.
Proof.
  intros S HP p Hp Ep. assert (EP : P p <> None) by (rewrite <- (S p Hp Ep); exact Ep).
  destruct (HP p Hp EP) as (l & Hl & El & q & C & A). revert Hp Ep EP. induction C as [q|a b d St C IH]; intros Hp Ep EP.
  - exists l. split; [exact Hl|]. split; [|exists q; split; [apply rtc_refl|exact A]].
    destruct (Q l) eqn:E; [|reflexivity]. rewrite S in E; congruence.
  - destruct St as (Ha & Hb & A' & E). destruct (Q b) as [cb|] eqn:Eb.
    + destruct (IH A Hb) as (l' & Hl' & El' & q' & C' & A''); [congruence|rewrite <- (S b Hb); congruence|].
      exists l'. split; [exact Hl'|]. split; [exact El'|]. exists q'. split; [|exact A''].
      eapply rtc_l; [|exact C']. split; [exact Ha|]. split; [exact Hb|]. split; [exact A'|].
      rewrite (S a Ha Ep), (S b Hb); [exact E|congruence].
    + exists b. split; [exact Hb|]. split; [exact Eb|]. exists a. split; [apply rtc_refl|exact A'].
Qed.

(** a stone after which every chain has a liberty is accepted and captures nothing *)
Lemma rquiet_stone dbg n b w g x y : Nat.divide (snd n) (fst n) -> rgreach dbg n b w g -> (N.of_nat (b + w) < 65535)%N -> ron n (x, y) -> position g (x, y) = None ->
  gm_passes g <> 2 -> gm_ko_point g = None -> forbids_fill_eye (gm_rule g) = false ->
  rall_breathe n (put (position g) (x, y) (gm_turn g)) ->
  exists g', try_play dbg g (MPlay x y) = Ok (g', Accepted) /\ gm_rule g' = gm_rule g /\ gm_passes g' = 0 /\ gm_ko_point g' = None /\
    gm_turn g' = opp (gm_turn g) /\ rsame_pos n (position g') (put (position g) (x, y) (gm_turn g)) /\
    rgreach dbg n (fst (bump_count (gm_turn g) (b, w))) (snd (bump_count (gm_turn g) (b, w))) g'.
Proof.
  intros Hd HG L Hp He Hpass Hko Hfe HB. set (P := position g) in *. set (c := gm_turn g) in *. set (p := (x, y)) in *.
  assert (NT : forall q, ron n q -> ~ rtaken n (put P p c) p c q).
  { intros q Hq (t & Ht & A & Et & _ & N). apply N. apply HB; [exact Ht|congruence]. }
  assert (NC : ~ rcaptures n P p c) by (intros (q & Hq & T); exact (NT q Hq T)).
  assert (NS : ~ rsuicidal n P p c).
  { intros (Q & C & N). apply N. assert (S : rsame_pos n Q (put P p c)).
    { intros q Hq. destruct (C q Hq) as [_ B]. apply B, NT, Hq. }
    apply (rbreathes_ext n Q _ p S). apply HB; [exact Hp|]. unfold put. rewrite decide_True by reflexivity. discriminate. }
  assert (J : rjudged n (flag_illegal (gm_rule g)) (table_of g) (x, y) Accepted).
  { unfold rjudged, rreasons, rpoint_reasons. cbn [first_reason]. cbn [table_of t_pos t_turn t_passes t_ko].
    repeat constructor; cbn [snd].
    - exact Hpass.
    - intros F. exact (F He).
    - intros [_ F]. exact (NS F).
    - intros [_ [F _]]. cbn [t_ko table_of] in F. congruence.
    - intros [F _]. unfold no_fill_eye in F. unfold forbids_fill_eye in Hfe. congruence.
    - intros [_ (_ & F & _)]. exact (NC F). }
  destruct (proj2 (rverdict_exact dbg n b w g x y Accepted Hd HG Hp (rfew _ _ _ _ _ Hd HG L)) J) as [g' E].
  destruct (rstone_sim dbg n b w g x y Hd HG Hp He L) as (g1 & E1 & R1 & S1 & G1).
  destruct (try_play_inv _ _ _ _ _ E) as [(e & F & _)|(_ & _ & E')]; [discriminate|]. rewrite E1 in E'. injection E' as ->.
  exists g'. split; [exact E|]. split; [exact R1|]. split; [exact (rss_passes _ _ _ _ _ S1)|]. split.
  { destruct (gm_ko_point g') as [q|] eqn:Ek; [|reflexivity]. exfalso.
    destruct (proj1 (rss_ko _ _ _ _ _ S1 q) Ek) as (Hq & T & _). exact (NT q Hq T). }
  split; [exact (rss_turn _ _ _ _ _ S1)|]. split; [|exact G1].
  destruct (rss_pos _ _ _ _ _ S1) as (Q & C1 & C2). cbn [table_of t_pos t_turn] in C1, C2. change (position g) with P in C1. change (gm_turn g) with c in C1.
  assert (S : rsame_pos n Q (put P p c)). { intros q Hq. destruct (C1 q Hq) as [_ B]. apply B, NT, Hq. }
  intros q Hq. destruct (C2 q Hq) as [_ B]. rewrite B; [apply S, Hq|]. intros (_ & F & _). apply F.
  apply (rbreathes_ext n Q _ p S). apply HB; [exact Hp|]. unfold put. rewrite decide_True by reflexivity. discriminate.
Qed.

Lemma rbuild_up dbg n r P : Nat.divide (snd n) (fst n) -> (N.of_nat (fst n * snd n) < 65535)%N -> forbids_fill_eye r = false -> rall_breathe n P ->
  forall l, NoDup l -> (forall p, p ∈ l -> ron n p /\ P p <> None) ->
  forall g0, rgreach dbg n 0 0 g0 -> gm_rule g0 = r -> gm_passes g0 = 0 -> gm_ko_point g0 = None -> (forall q, ron n q -> position g0 q = None) ->
  exists ms g b w, all_accepted dbg g0 ms g /\ Forall (rplain n) ms /\ length ms <= 2 * length l /\
    rgreach dbg n b w g /\ b + w = length l /\ gm_rule g = r /\ gm_passes g = 0 /\ gm_ko_point g = None /\ rsame_pos n (position g) (part P l).
Proof.
  intros Hd Hn Hr HP. induction l as [|[x y] l IH]; intros ND HL g0 H0 R0 P0 K0 E0.
  - exists [], g0, 0, 0. split; [reflexivity|]. split; [constructor|]. split; [cbn; lia|]. split; [exact H0|]. repeat (split; [assumption || reflexivity|]).
    intros q Hq. rewrite E0 by exact Hq. unfold part. rewrite decide_False; [reflexivity|apply not_elem_of_nil].
  - apply NoDup_cons in ND. destruct ND as [Nx ND].
    destruct (IH ND ltac:(intros p Hp; apply HL, elem_of_list_further, Hp) g0 H0 R0 P0 K0 E0) as (ms & g & b & w & A & F & L & HG & BW & R & Pa & K & SG).
    destruct (HL (x, y) (elem_of_list_here _ _)) as [Hon Hne]. destruct (P (x, y)) as [c|] eqn:Ec; [|contradiction].
    assert (LL : length l < fst n * snd n).
    { assert (IL : length ((x, y) :: l) <= length (rpoints n)).
      { apply submseteq_length, NoDup_submseteq; [apply NoDup_cons; auto|]. intros p Hp. apply elem_of_rpoints. apply HL, Hp. }
      rewrite rpoints_length in IL. cbn [Datatypes.length] in IL. exact IL. }
    assert (He : position g (x, y) = None).
    { rewrite (SG _ Hon). unfold part. rewrite decide_False; [reflexivity|exact Nx]. }
    assert (SP : forall Q, rsame_pos n Q (part P l) -> rall_breathe n (put Q (x, y) c) /\ rsame_pos n (put Q (x, y) c) (part P ((x, y) :: l))).
    { intros Q SQ.
      assert (S2 : rsame_pos n (put Q (x, y) c) (part P ((x, y) :: l))).
      { intros q Hq. unfold put, part. case_decide as D.
        - subst q. rewrite decide_True by apply elem_of_list_here. symmetry. exact Ec.
        - rewrite (SQ q Hq). unfold part. destruct (decide (q ∈ l)) as [I|I].
          + rewrite decide_True; [reflexivity|apply elem_of_list_further, I].
          + rewrite decide_False; [reflexivity|]. intros I'. apply elem_of_cons in I'. tauto. }
      split; [|exact S2]. apply (rsub_breathes n P); [|exact HP]. intros q Hq Ne. rewrite (S2 q Hq) in *. unfold part in *. case_decide; [reflexivity|contradiction]. }
    destruct (decide (gm_turn g = c)) as [T|T].
    + destruct (SP _ SG) as [B1 B2].
      destruct (rquiet_stone dbg n b w g x y Hd HG ltac:(lia) Hon He ltac:(lia) K ltac:(congruence) ltac:(rewrite T; exact B1)) as (g' & E & R' & P' & K' & _ & S' & G').
      exists (ms ++ [MPlay x y]), g', (fst (bump_count (gm_turn g) (b, w))), (snd (bump_count (gm_turn g) (b, w))).
      split; [|split; [|split; [|split; [exact G'|split; [|]]]]].
      * clear -A E. revert g0 A. induction ms as [|m ms IH]; intros g0 A; cbn in *; [subst; eauto|]. destruct A as (g1 & E1 & A). exists g1. split; [exact E1|]. apply IH, A.
      * apply Forall_app. split; [exact F|]. constructor; [exact Hon|constructor].
      * rewrite app_length. cbn. lia.
      * rewrite bump_total. cbn. lia.
      * split; [congruence|]. split; [exact P'|]. split; [exact K'|]. rewrite T in S'. eapply rsame_pos_trans; [exact S'|exact B2].
    + assert (EP : try_play dbg g MPass = Ok (mkGame (gm_goban g) (S (gm_passes g)) (gm_prisoners g) (gm_outcome g) (opp (gm_turn g)) (gm_rule g) (gm_handicap g) (gm_history g) None, Accepted)).
      { unfold try_play. rewrite Pa. cbn [Nat.eqb play Nat.ltb Nat.leb assert_ bind]. rewrite Pa. reflexivity. }
      set (h := mkGame _ _ _ _ _ _ _ _ _) in EP.
      assert (HGh : rgreach dbg n b w h).
      { destruct (try_play_inv _ _ _ _ _ EP) as [(e & Fa & _)|(_ & _ & E')]; [discriminate|]. eapply rg_pass; eassumption. }
      assert (Th : gm_turn h = c) by (unfold h; cbn; destruct c, (gm_turn g); try reflexivity; contradict T; reflexivity).
      change (position g) with (position h) in SG. destruct (SP _ SG) as [B1 B2].
      destruct (rquiet_stone dbg n b w h x y Hd HGh ltac:(lia) Hon He ltac:(unfold h; cbn; lia) eq_refl ltac:(unfold h; cbn; congruence) ltac:(rewrite Th; exact B1)) as (g' & E & R' & P' & K' & _ & S' & G').
      exists (ms ++ [MPass; MPlay x y]), g', (fst (bump_count (gm_turn h) (b, w))), (snd (bump_count (gm_turn h) (b, w))).
      split; [|split; [|split; [|split; [exact G'|split; [|]]]]].
      * clear -A E EP. revert g0 A. induction ms as [|m ms IH]; intros g0 A; cbn in *; [subst; eauto|]. destruct A as (g1 & E1 & A). exists g1. split; [exact E1|]. apply IH, A.
      * apply Forall_app. split; [exact F|]. constructor; [exact I|]. constructor; [exact Hon|constructor].
      * rewrite app_length. cbn. lia.
      * rewrite bump_total. cbn. lia.
      * split; [unfold h in R'; cbn in R'; congruence|]. split; [exact P'|]. split; [exact K'|]. rewrite Th in S'. eapply rsame_pos_trans; [exact S'|exact B2].
Qed.

Lemma raccepted_lreach dbg n ms : forall g g', rlreach dbg n g -> Forall (rplain n) ms -> all_accepted dbg g ms g' -> rlreach dbg n g'.
Proof.
  induction ms as [|m ms IH]; intros g g' HG F A; cbn in A; [subst; exact HG|].
  apply Forall_cons in F. destruct F as [Fm F]. destruct A as (g1 & E & A). apply (IH g1); [|exact F|exact A].
  destruct m as [|c|x y]; [eapply rl_pass; eassumption|contradiction|eapply rl_play; eassumption].
Qed.

Theorem rlegal_positions dbg n s r g0 P : Nat.divide (snd n) (fst n) -> (1 <= fst n) -> (1 <= snd n) -> size_of s = n -> game_new s r = Ok g0 -> forbids_fill_eye r = false ->
  rall_breathe n P <->
  exists ms g, Forall (rplain n) ms /\ length ms <= 2 * (fst n * snd n) /\ all_accepted dbg g0 ms g /\ rsame_pos n (position g) P.
Proof.
  intros Hd Hn Hn2 Hs E0 Hr.
  assert (HL0 : rlreach dbg n g0) by (eapply rl_new; eassumption).
  assert (HG0 : rgreach dbg n 0 0 g0) by (eapply rg_new; eassumption).
  pose proof (fits_points n (rwf_n _ _ (rgi_wf _ _ _ _ (rgreach_inv _ _ _ _ _ Hd HG0)))) as N19.
  destruct (rstart_table dbg n s r g0 Hd Hn Hn2 Hs E0) as [ST _].
  split.
  - intros HB.
    assert (R0 : gm_rule g0 = r) by (unfold game_new in E0; destruct (goban_new _); try discriminate; cbn in E0; injection E0 as <-; reflexivity).
    destruct (rbuild_up dbg n r P Hd ltac:(lia) Hr HB (filter (fun p => P p <> None) (rpoints n))
       ltac:(apply NoDup_filter, NoDup_rpoints) ltac:(intros p Hp; apply elem_of_list_filter in Hp; rewrite elem_of_rpoints in Hp; tauto)
       g0 HG0 R0 (rsa_passes _ _ _ ST) (rsa_ko _ _ _ ST) (rsa_pos _ _ _ ST)) as (ms & g & b & w & A & F & L & _ & _ & _ & _ & _ & S).
    exists ms, g. split; [exact F|]. split.
    { etransitivity; [exact L|]. apply Nat.mul_le_mono_l. rewrite <- rpoints_length. apply filter_length. }
    split; [exact A|]. eapply rsame_pos_trans; [exact S|]. intros q Hq. unfold part. case_decide as D; [reflexivity|].
    destruct (P q) eqn:E; [|reflexivity]. exfalso. apply D. apply elem_of_list_filter. rewrite elem_of_rpoints. split; [congruence|exact Hq].
  - intros (ms & g & F & _ & A & S). pose proof (raccepted_lreach _ _ _ _ _ HL0 F A) as HL.
    destruct (rlreach_inv _ _ _ Hd HL) as [HB _]. intros p Hp Ep. change (pos_of (gm_goban g)) with (position g) in HB.
    apply (rbreathes_ext n (position g) P p S). apply HB; [exact Hp|]. rewrite (S p Hp). exact Ep.
Qed.
