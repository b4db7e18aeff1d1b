(** How soon a position can come back. *)
From stdpp Require Import relations.
From Verif Require Import Spec Observe CycleSpec Samples MonadFacts Bridge GameFacts RulesFacts BoardFacts LegalFacts ClaimFacts LifeFacts EndFacts PositionFacts RefuteFacts CaseFacts.
From Coq Require Import Lia.

Local Notation length := Datatypes.length.
Open Scope nat_scope.

Lemma adj_irrefl p : ~ adj p p.
Proof. unfold adj. lia. Qed.

(** a stone leaves the position as it was exactly if it is a suicide of one stone *)
Lemma unchanged dbg n b w g x y g' : greach dbg n b w g -> on n (x, y) -> try_play dbg g (MPlay x y) = Ok (g', Accepted) ->
  same_pos n (position g') (position g) <->
  forbids_suicide (gm_rule g) = false /\ walled_in n (position g) (gm_turn g) (x, y) /\ ~ captures n (position g) (x, y) (gm_turn g).
Proof.
  intros HG Hp E. pose proof (greach_inv _ _ _ _ _ HG) as G.
  destruct (accepted_step dbg n b w g x y g' G Hp E) as (He & _ & _ & M). rewrite suicide_bit in M.
  change (pos_of (gm_goban g)) with (position g) in *. change (pos_of (gm_goban g')) with (position g') in *.
  set (P := position g) in *. set (R := position g') in *. set (c := gm_turn g) in *. set (p := (x, y)) in *. clearbody P R c p. clear E G HG.
  destruct M as (Q & C1 & C2).
  assert (Tc : forall q, taken n (put P p c) p c q -> put P p c q = Some (opp c) /\ q <> p /\ P q = Some (opp c)).
  { intros q T. pose proof (taken_color _ _ _ _ _ T) as K. split; [exact K|]. unfold put in K. destruct (decide (q = p)) as [->|Hne]; [|auto].
    destruct c; discriminate. }
  assert (Qp : Q p = Some c).
  { destruct (C1 p Hp) as [_ K]. rewrite K; [unfold put; rewrite decide_True; reflexivity|]. intros T. destruct (Tc p T) as (_ & F & _). contradiction. }
  assert (Qo : forall q, on n q -> q <> p -> ~ taken n (put P p c) p c q -> Q q = P q).
  { intros q Hq Hne Ht. destruct (C1 q Hq) as [_ K]. rewrite (K Ht). unfold put. rewrite decide_False by exact Hne. reflexivity. }
  split.
  - intros S. assert (Rp : R p = None) by (rewrite (S p Hp); exact He).
    assert (D : negb (forbids_suicide (gm_rule g)) = true /\ ~ breathes n Q p).
    { destruct (negb (forbids_suicide (gm_rule g))) eqn:Ef.
      - split; [reflexivity|]. intros B. destruct (C2 p Hp) as [_ K]. rewrite K in Rp; [congruence|]. intros (_ & F & _). contradiction.
      - destruct (C2 p Hp) as [_ K]. rewrite K in Rp; [congruence|]. intros (F & _). discriminate. }
    destruct D as [Ef Nb]. split; [apply negb_true_iff in Ef; exact Ef|].
    assert (Nt : forall q, on n q -> ~ taken n (put P p c) p c q).
    { intros q Hq T. destruct (Tc q T) as (_ & _ & K). destruct (C1 q Hq) as [K1 _]. specialize (K1 T).
      assert (Rq : R q = None).
      { destruct (C2 q Hq) as [K2 K3].
        assert (Hn : ~ (negb (forbids_suicide (gm_rule g)) = true /\ ~ breathes n Q p /\ connected n Q p q)).
        { intros (_ & _ & F). apply connected_color in F. congruence. }
        rewrite (K3 Hn). exact K1. }
      rewrite (S q Hq) in Rq. congruence. }
    split.
    + intros q Hq A. assert (Hne : q <> p) by (intros ->; exact (adj_irrefl p A)). pose proof (Qo q Hq Hne (Nt q Hq)) as Eq.
      destruct (P q) as [d|] eqn:Ed.
      * f_equal. destruct (decide (d = c)) as [->|Hd]; [|destruct c, d; try reflexivity; contradiction]. exfalso.
        assert (Cn : connected n Q p q) by (apply rtc_once; split; [exact Hp|]; split; [exact Hq|]; split; [exact A|congruence]).
        destruct (C2 q Hq) as [K2 _]. assert (Rq : R q = None) by (apply K2; auto). rewrite (S q Hq) in Rq. congruence.
      * exfalso. apply Nb. exists q. split; [exact Hq|]. split; [exact Eq|]. exists p. split; [apply rtc_refl|exact A].
    + intros (q & Hq & T). exact (Nt q Hq T).
  - intros (Ef & Hw & Nc). assert (Nt : forall q, on n q -> ~ taken n (put P p c) p c q) by (intros q Hq T; apply Nc; exists q; auto).
    assert (Al : forall q, connected n Q p q -> q = p).
    { intros q C. apply rtc_inv in C as [->|(r & (H1 & H2 & A & Er) & _)]; [reflexivity|]. exfalso.
      assert (Hne : r <> p) by (intros ->; exact (adj_irrefl p A)). rewrite (Qo r H2 Hne (Nt r H2)), (Hw r H2 A), Qp in Er. destruct c; discriminate. }
    assert (Nb : ~ breathes n Q p).
    { intros (l & Hl & El & q & C & A). rewrite (Al q C) in A. assert (Hne : l <> p) by (intros ->; exact (adj_irrefl p A)).
      rewrite (Qo l Hl Hne (Nt l Hl)), (Hw l Hl A) in El. discriminate. }
    intros q Hq. destruct (C2 q Hq) as [K1 K2]. destruct (decide (q = p)) as [->|Hne].
    + rewrite He. apply K1. rewrite Ef. split; [reflexivity|]. split; [exact Nb|apply rtc_refl].
    + rewrite K2; [exact (Qo q Hq Hne (Nt q Hq))|]. intros (_ & _ & F). exact (Hne (Al q F)).
Qed.

(** two stones in a row do not bring a position back *)
Lemma two_stones dbg n g0 x y g1 a b g2 : lreach dbg n g0 -> forbids_ko (gm_rule g0) = true -> forbids_suicide (gm_rule g0) = true ->
  forbids_superko (gm_rule g0) = false -> on n (x, y) -> try_play dbg g0 (MPlay x y) = Ok (g1, Accepted) ->
  on n (a, b) -> try_play dbg g1 (MPlay a b) = Ok (g2, Accepted) ->
  ~ same_pos n (position g1) (position g0) /\ ~ same_pos n (position g2) (position g1) /\ ~ same_pos n (position g2) (position g0).
Proof.
  intros HL Hk Hs Hsk Hp E1 Hq E2. destruct (lreach_greach _ _ _ HL) as (b0 & w0 & HG). pose proof (lr_play _ _ _ _ _ _ HL Hp E1) as HL1.
  destruct (lreach_greach _ _ _ HL1) as (b1 & w1 & HG1). pose proof (LongFacts.try_rule _ _ _ _ _ E1) as ER.
  split; [|split].
  - intros S. apply (unchanged dbg n b0 w0 g0 x y g1 HG Hp E1) in S as (F & _). congruence.
  - intros S. apply (unchanged dbg n b1 w1 g1 a b g2 HG1 Hq E2) in S as (F & _). congruence.
  - intros S. destruct (accepted_step dbg n b1 w1 g1 a b g2 (greach_inv _ _ _ _ _ HG1) Hq E2) as (He & _ & _ & M).
    rewrite suicide_bit, ER, Hs in M.
    assert (F : try_play dbg g1 (MPlay a b) = Ok (g1, Refused EKo)).
    { apply (claim_simple_ko dbg n g0 x y g1 a b HL Hk Hs Hsk Hp E1 Hq). split; [exact He|]. exists (position g2). split; [exact M|exact S]. }
    congruence.
Qed.

(** three stones can: two stones are sent, one comes back *)
Definition sent : list move := [MPlay 1 0; MPlay 0 1; MPlay 1 1; MPlay 0 3; MPass; MPlay 1 2; MPass].

Lemma three_stones dbg : exists g0 g1 g2 g3, lreach dbg 4 g0 /\ flag_illegal (gm_rule g0) = flag_illegal JAPANESE /\
  try_play dbg g0 (MPlay 0 0) = Ok (g1, Accepted) /\ try_play dbg g1 (MPlay 0 2) = Ok (g2, Accepted) /\ try_play dbg g2 (MPlay 0 1) = Ok (g3, Accepted) /\
  same_pos 4 (position g3) (position g0) /\ gm_turn g3 = opp (gm_turn g0).
Proof.
  destruct (legal_sampleb dbg 4 JAPANESE sent (fun g0 => (flag_illegal (gm_rule g0) =? flag_illegal JAPANESE)%N &&
    match try_play dbg g0 (MPlay 0 0) with Ok (g1, Accepted) =>
    match try_play dbg g1 (MPlay 0 2) with Ok (g2, Accepted) =>
    match try_play dbg g2 (MPlay 0 1) with Ok (g3, Accepted) =>
      bool_decide (List.map (position g3) (points 4) = List.map (position g0) (points 4)) && bool_decide (gm_turn g3 = opp (gm_turn g0))
    | _ => false end | _ => false end | _ => false end) ltac:(lia)) as (g0 & L & F); [destruct dbg; vm_compute; reflexivity|].
  apply andb_true_iff in F as [F0 F]. apply N.eqb_eq in F0.
  destruct (try_play dbg g0 (MPlay 0 0)) as [[g1 []]| |] eqn:E1; try discriminate.
  destruct (try_play dbg g1 (MPlay 0 2)) as [[g2 []]| |] eqn:E2; try discriminate.
  destruct (try_play dbg g2 (MPlay 0 1)) as [[g3 []]| |] eqn:E3; try discriminate.
  bools F. apply bool_decide_eq_true in F, F1. exists g0, g1, g2, g3. repeat (split; [assumption|]). split; [apply picture_same; exact F|exact F1].
Qed.

(** under Chinese rules the third stone is refused *)
Lemma third_refused dbg : exists g0 g1 g2, lreach dbg 4 g0 /\ flag_illegal (gm_rule g0) = flag_illegal CHINESE /\
  try_play dbg g0 (MPlay 0 0) = Ok (g1, Accepted) /\ try_play dbg g1 (MPlay 0 2) = Ok (g2, Accepted) /\ try_play dbg g2 (MPlay 0 1) = Ok (g2, Refused EKo).
Proof.
  destruct (legal_sampleb dbg 4 CHINESE sent (fun g0 => (flag_illegal (gm_rule g0) =? flag_illegal CHINESE)%N &&
    match try_play dbg g0 (MPlay 0 0) with Ok (g1, Accepted) =>
    match try_play dbg g1 (MPlay 0 2) with Ok (g2, Accepted) => verdict_is (try_play dbg g2 (MPlay 0 1)) (Some EKo)
    | _ => false end | _ => false end) ltac:(lia)) as (g0 & L & F); [destruct dbg; vm_compute; reflexivity|].
  apply andb_true_iff in F as [F0 F]. apply N.eqb_eq in F0.
  destruct (try_play dbg g0 (MPlay 0 0)) as [[g1 []]| |] eqn:E1; try discriminate.
  destruct (try_play dbg g1 (MPlay 0 2)) as [[g2 []]| |] eqn:E2; try discriminate.
  apply refused_is in F. exists g0, g1, g2. repeat (split; [assumption|]). exact F.
Qed.

(** so can two, with passes and [resume] in between *)
Lemma two_with_passes dbg : exists g0 g1 g2 g3, lreach dbg 9 g0 /\ flag_illegal (gm_rule g0) = flag_illegal JAPANESE /\
  try_play dbg g0 (MPlay 1 2) = Ok (g1, Accepted) /\
  (exists h1 h2, try_play dbg g1 MPass = Ok (h1, Accepted) /\ try_play dbg h1 MPass = Ok (h2, Accepted) /\ g2 = resume h2) /\
  try_play dbg g2 (MPlay 1 1) = Ok (g3, Accepted) /\ same_pos 9 (position g3) (position g0) /\ gm_turn g3 = gm_turn g0.
Proof.
  destruct (legal_sampleb dbg 9 JAPANESE (removelast ko_moves) (fun g0 => (flag_illegal (gm_rule g0) =? flag_illegal JAPANESE)%N &&
    match try_play dbg g0 (MPlay 1 2) with Ok (g1, Accepted) =>
    match try_play dbg g1 MPass with Ok (h1, Accepted) =>
    match try_play dbg h1 MPass with Ok (h2, Accepted) =>
    match try_play dbg (resume h2) (MPlay 1 1) with Ok (g3, Accepted) =>
      bool_decide (List.map (position g3) (points 9) = List.map (position g0) (points 9)) && bool_decide (gm_turn g3 = gm_turn g0)
    | _ => false end | _ => false end | _ => false end | _ => false end) ltac:(lia)) as (g0 & L & F); [destruct dbg; vm_compute; reflexivity|].
  apply andb_true_iff in F as [F0 F]. apply N.eqb_eq in F0.
  destruct (try_play dbg g0 (MPlay 1 2)) as [[g1 []]| |] eqn:E1; try discriminate.
  destruct (try_play dbg g1 MPass) as [[h1 []]| |] eqn:E2; try discriminate.
  destruct (try_play dbg h1 MPass) as [[h2 []]| |] eqn:E3; try discriminate.
  destruct (try_play dbg (resume h2) (MPlay 1 1)) as [[g3 []]| |] eqn:E4; try discriminate.
  bools F. apply bool_decide_eq_true in F, F1. exists g0, g1, (resume h2), g3. do 3 (split; [assumption|]). split; [eauto|].
  split; [exact E4|]. split; [apply picture_same; exact F|exact F1].
Qed.

(** a suicide of one stone, and a stone that is no suicide *)
Lemma case_unchanged dbg : exists b w g g1 g2, greach dbg 4 b w g /\
  on 4 (0, 0) /\ try_play dbg g (MPlay 0 0) = Ok (g1, Accepted) /\ same_pos 4 (position g1) (position g) /\
  on 4 (3, 3) /\ try_play dbg g (MPlay 3 3) = Ok (g2, Accepted) /\ ~ same_pos 4 (position g2) (position g).
Proof.
  destruct (legal_sampleb dbg 4 FREE [MPlay 0 1; MPlay 2 2; MPlay 1 0] (fun g =>
    match try_play dbg g (MPlay 0 0), try_play dbg g (MPlay 3 3) with Ok (g1, Accepted), Ok (g2, Accepted) =>
      bool_decide (List.map (position g1) (points 4) = List.map (position g) (points 4)) && has g (3, 3) None && has g2 (3, 3) (Some White)
    | _, _ => false end) ltac:(lia)) as (g & L & F); [destruct dbg; vm_compute; reflexivity|].
  destruct (try_play dbg g (MPlay 0 0)) as [[g1 []]| |] eqn:E1; try discriminate.
  destruct (try_play dbg g (MPlay 3 3)) as [[g2 []]| |] eqn:E2; try discriminate. bools F. unfold has in *.
  apply bool_decide_eq_true in F, F0, F1. destruct (lreach_greach _ _ _ L) as (b & w & HG). exists b, w, g, g1, g2.
  split; [exact HG|]. split; [on_|]. split; [exact E1|]. split; [apply picture_same; exact F|]. split; [on_|]. split; [exact E2|].
  intros S. specialize (S (3, 3) ltac:(on_)). congruence.
Qed.

(** a capture, and a stone elsewhere *)
Lemma case_two_stones dbg : exists g0 g1 g2, lreach dbg 9 g0 /\ forbids_ko (gm_rule g0) = true /\ forbids_suicide (gm_rule g0) = true /\
  forbids_superko (gm_rule g0) = false /\ on 9 (1, 2) /\ try_play dbg g0 (MPlay 1 2) = Ok (g1, Accepted) /\
  on 9 (5, 5) /\ try_play dbg g1 (MPlay 5 5) = Ok (g2, Accepted) /\ try_play dbg g1 (MPlay 1 1) = Ok (g1, Refused EKo).
Proof.
  destruct (legal_sampleb dbg 9 JAPANESE (removelast ko_moves) (fun g0 => forbids_ko (gm_rule g0) && forbids_suicide (gm_rule g0) && negb (forbids_superko (gm_rule g0)) &&
    match try_play dbg g0 (MPlay 1 2) with Ok (g1, Accepted) =>
      verdict_is (try_play dbg g1 (MPlay 1 1)) (Some EKo) && match try_play dbg g1 (MPlay 5 5) with Ok (_, Accepted) => true | _ => false end
    | _ => false end) ltac:(lia)) as (g0 & L & F); [destruct dbg; vm_compute; reflexivity|].
  apply andb_true_iff in F as [F F3]. bools F.
  destruct (try_play dbg g0 (MPlay 1 2)) as [[g1 []]| |] eqn:E1; try discriminate. apply andb_true_iff in F3 as [F3 F4]. apply refused_is in F3.
  destruct (try_play dbg g1 (MPlay 5 5)) as [[g2 []]| |] eqn:E2; try discriminate. apply negb_true_iff in F0.
  exists g0, g1, g2. repeat (split; [assumption|]). split; [on_|]. split; [exact E1|]. split; [on_|]. split; assumption.
Qed.
