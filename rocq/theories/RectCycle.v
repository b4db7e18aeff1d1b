(** How soon a position can come back on boards whose width divides their height. *)
From stdpp Require Import relations.
From Verif Require Import Spec Observe Samples MonadFacts Bridge GameFacts RulesFacts BoardFacts LegalFacts ClaimFacts LifeFacts EndFacts CaseFacts CycleClaims.
From Verif Require Import RectSpec RectReach RectCycleSpec RectVerdictSpec RectGo RectInv RectBridge RectGame RectReachFacts RectRules RectBoard RectVerdict RectMoves RectKo RectLegal RectLegalClaims RectEnd RectLife.
From Coq Require Import Lia.

Local Notation length := Datatypes.length.
Open Scope nat_scope.

(** a stone leaves the position as it was exactly if it is a suicide of one stone *)
Lemma runchanged dbg n b w g x y g' : Nat.divide (snd n) (fst n) -> rgreach dbg n b w g -> ron n (x, y) -> try_play dbg g (MPlay x y) = Ok (g', Accepted) ->
  rsame_pos n (position g') (position g) <->
  forbids_suicide (gm_rule g) = false /\ rwalled_in n (position g) (gm_turn g) (x, y) /\ ~ rcaptures n (position g) (x, y) (gm_turn g).
Proof.
  intros Hd HG Hp E. pose proof (rgreach_inv _ _ _ _ _ Hd HG) as G.
  destruct (raccepted_step dbg n b w g x y g' G Hp E) as (He & _ & _ & M). rewrite suicide_bit in M.
  change (pos_of (gm_goban g)) with (position g) in *. change (pos_of (gm_goban g')) with (position g') in *.
  set (P := position g) in *. set (R := position g') in *. set (c := gm_turn g) in *. set (p := (x, y)) in *. clearbody P R c p. clear E G HG.
  destruct M as (Q & C1 & C2).
  assert (Tc : forall q, rtaken n (put P p c) p c q -> put P p c q = Some (opp c) /\ q <> p /\ P q = Some (opp c)).
  { intros q T. pose proof (rtaken_color _ _ _ _ _ T) as K. split; [exact K|]. unfold put in K. destruct (decide (q = p)) as [->|Hne]; [|auto].
    destruct c; discriminate. }
  assert (Qp : Q p = Some c).
  { destruct (C1 p Hp) as [_ K]. rewrite K; [unfold put; rewrite decide_True; reflexivity|]. intros T. destruct (Tc p T) as (_ & F & _). contradiction. }
  assert (Qo : forall q, ron n q -> q <> p -> ~ rtaken n (put P p c) p c q -> Q q = P q).
  { intros q Hq Hne Ht. destruct (C1 q Hq) as [_ K]. rewrite (K Ht). unfold put. rewrite decide_False by exact Hne. reflexivity. }
  split.
  - intros S. assert (Rp : R p = None) by (rewrite (S p Hp); exact He).
    assert (D : negb (forbids_suicide (gm_rule g)) = true /\ ~ rbreathes n Q p).
    { destruct (negb (forbids_suicide (gm_rule g))) eqn:Ef.
      - split; [reflexivity|]. intros B. destruct (C2 p Hp) as [_ K]. rewrite K in Rp; [congruence|]. intros (_ & F & _). contradiction.
      - destruct (C2 p Hp) as [_ K]. rewrite K in Rp; [congruence|]. intros (F & _). discriminate. }
    destruct D as [Ef Nb]. split; [apply negb_true_iff in Ef; exact Ef|].
    assert (Nt : forall q, ron n q -> ~ rtaken n (put P p c) p c q).
    { intros q Hq T. destruct (Tc q T) as (_ & _ & K). destruct (C1 q Hq) as [K1 _]. specialize (K1 T).
      assert (Rq : R q = None).
      { destruct (C2 q Hq) as [K2 K3].
        assert (Hn : ~ (negb (forbids_suicide (gm_rule g)) = true /\ ~ rbreathes n Q p /\ rconnected n Q p q)).
        { intros (_ & _ & F). apply rconnected_color in F. congruence. }
        rewrite (K3 Hn). exact K1. }
      rewrite (S q Hq) in Rq. congruence. }
    split.
    + intros q Hq A. assert (Hne : q <> p) by (intros ->; exact (adj_irrefl p A)). pose proof (Qo q Hq Hne (Nt q Hq)) as Eq.
      destruct (P q) as [d|] eqn:Ed.
      * f_equal. destruct (decide (d = c)) as [->|Hdc]; [|destruct c, d; try reflexivity; contradiction]. exfalso.
        assert (Cn : rconnected n Q p q) by (apply rtc_once; split; [exact Hp|]; split; [exact Hq|]; split; [exact A|congruence]).
        destruct (C2 q Hq) as [K2 _]. assert (Rq : R q = None) by (apply K2; auto). rewrite (S q Hq) in Rq. congruence.
      * exfalso. apply Nb. exists q. split; [exact Hq|]. split; [exact Eq|]. exists p. split; [apply rtc_refl|exact A].
    + intros (q & Hq & T). exact (Nt q Hq T).
  - intros (Ef & Hw & Nc). assert (Nt : forall q, ron n q -> ~ rtaken n (put P p c) p c q) by (intros q Hq T; apply Nc; exists q; auto).
    assert (Al : forall q, rconnected n Q p q -> q = p).
    { intros q C. apply rtc_inv in C as [->|(r & (H1 & H2 & A & Er) & _)]; [reflexivity|]. exfalso.
      assert (Hne : r <> p) by (intros ->; exact (adj_irrefl p A)). rewrite (Qo r H2 Hne (Nt r H2)), (Hw r H2 A), Qp in Er. destruct c; discriminate. }
    assert (Nb : ~ rbreathes n Q p).
    { intros (l & Hl & El & q & C & A). rewrite (Al q C) in A. assert (Hne : l <> p) by (intros ->; exact (adj_irrefl p A)).
      rewrite (Qo l Hl Hne (Nt l Hl)), (Hw l Hl A) in El. discriminate. }
    intros q Hq. destruct (C2 q Hq) as [K1 K2]. destruct (decide (q = p)) as [->|Hne].
    + rewrite He. apply K1. rewrite Ef. split; [reflexivity|]. split; [exact Nb|apply rtc_refl].
    + rewrite K2; [exact (Qo q Hq Hne (Nt q Hq))|]. intros (_ & _ & F). exact (Hne (Al q F)).
Qed.

(** two stones in a row do not bring a position back *)
Lemma rtwo_stones dbg n g0 x y g1 a b g2 : Nat.divide (snd n) (fst n) -> rlreach dbg n g0 -> forbids_ko (gm_rule g0) = true -> forbids_suicide (gm_rule g0) = true ->
  forbids_superko (gm_rule g0) = false -> ron n (x, y) -> try_play dbg g0 (MPlay x y) = Ok (g1, Accepted) ->
  ron n (a, b) -> try_play dbg g1 (MPlay a b) = Ok (g2, Accepted) ->
  ~ rsame_pos n (position g1) (position g0) /\ ~ rsame_pos n (position g2) (position g1) /\ ~ rsame_pos n (position g2) (position g0).
Proof.
  intros Hd HL Hk Hs Hsk Hp E1 Hq E2. destruct (rlreach_greach _ _ _ Hd HL) as (b0 & w0 & HG). pose proof (rl_play _ _ _ _ _ _ HL Hp E1) as HL1.
  destruct (rlreach_greach _ _ _ Hd HL1) as (b1 & w1 & HG1). pose proof (LongFacts.try_rule _ _ _ _ _ E1) as ER.
  split; [|split].
  - intros S. apply (runchanged dbg n b0 w0 g0 x y g1 Hd HG Hp E1) in S as (F & _). congruence.
  - intros S. apply (runchanged dbg n b1 w1 g1 a b g2 Hd HG1 Hq E2) in S as (F & _). congruence.
  - intros S. destruct (raccepted_step dbg n b1 w1 g1 a b g2 (rgreach_inv _ _ _ _ _ Hd HG1) Hq E2) as (He & _ & _ & M).
    rewrite suicide_bit, ER, Hs in M.
    assert (F : try_play dbg g1 (MPlay a b) = Ok (g1, Refused EKo)).
    { apply (rclaim_simple_ko dbg n g0 x y g1 a b Hd HL Hk Hs Hsk Hp E1 Hq). split; [exact He|]. exists (position g2). split; [exact M|exact S]. }
    congruence.
Qed.

(** ** Cases on the 8 x 4 board *)

Lemma rcase_unchanged dbg : exists b w g g1 g2, Nat.divide 4 8 /\ rgreach dbg (8, 4) b w g /\
  ron (8, 4) (0, 0) /\ try_play dbg g (MPlay 0 0) = Ok (g1, Accepted) /\ rsame_pos (8, 4) (position g1) (position g) /\
  ron (8, 4) (7, 3) /\ try_play dbg g (MPlay 7 3) = Ok (g2, Accepted) /\ ~ rsame_pos (8, 4) (position g2) (position g).
Proof.
  destruct (game_new tall FREE) as [g0| |] eqn:E0; [|vm_compute in E0; discriminate..].
  destruct (rlegal_sample dbg tall FREE [MPlay 0 1; MPlay 6 2; MPlay 1 0] g0 (fun g =>
    match try_play dbg g (MPlay 0 0), try_play dbg g (MPlay 7 3) with Ok (g1, Accepted), Ok (g2, Accepted) =>
      bool_decide (rpicture (8, 4) (position g1) = rpicture (8, 4) (position g)) && has g (7, 3) None && has g2 (7, 3) (Some White)
    | _, _ => false end) E0) as (g & L & F); [cbn; lia|cbn; lia|plain_|vm_compute in E0; injection E0 as <-; destruct dbg; vm_compute; reflexivity|].
  destruct (try_play dbg g (MPlay 0 0)) as [[g1 []]| |] eqn:E1; try discriminate.
  destruct (try_play dbg g (MPlay 7 3)) as [[g2 []]| |] eqn:E2; try discriminate. bools F. unfold has in *.
  apply bool_decide_eq_true in F, F0, F1. destruct (rlreach_greach dbg (8, 4) g tall_divides L) as (b & w & HG). exists b, w, g, g1, g2.
  split; [exact tall_divides|]. split; [exact HG|]. split; [on_|]. split; [exact E1|]. split; [apply rpicture_same; exact F|]. split; [on_|]. split; [exact E2|].
  intros S. specialize (S (7, 3) ltac:(on_)). congruence.
Qed.
