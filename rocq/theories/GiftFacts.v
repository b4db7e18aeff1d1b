(** Handicap stones are Black stones with passes of White in between. *)
From stdpp Require Import relations.
From Verif Require Import GiftSpec ScoreSpec RoundSpec.
From Verif Require Import MonadFacts Spec Game Builder Struct Push Inv Remove Capture Bridge GameFacts RulesFacts LegalFacts LegalsFacts CheckFacts ClaimFacts LongFacts SymFacts SymGame SymScore ScoreFacts ReprFacts RectCount RectCoord RectBridge RectRules RectKo RectBoard RectCheck RectEye RectVerdict.
From Verif Require Import RectScore RectSpec RectReach RectVerdictSpec RectTableSpec RectInv RectGame RectMoves RectLegal RectTable RectReachFacts RectSymFacts RectSymGame RectSymClaims RectCountScore StrategyFacts StealFacts KomiClaims ValueFacts PastFacts OrderFacts.
From Coq Require Import Lia.

Local Notation length := Datatypes.length.
Local Open Scope nat_scope.

Lemma with_passes_cons p q pts : with_passes (p :: q :: pts) = MPlay (fst p) (snd p) :: MPass :: with_passes (q :: pts).
Proof. reflexivity. Qed.

Lemma one_pass dbg g g' : try_play dbg g MPass = Ok (g', Accepted) -> gm_goban g' = gm_goban g /\ gm_prisoners g' = gm_prisoners g /\ gm_outcome g' = gm_outcome g /\
  gm_turn g' = opp (gm_turn g) /\ gm_rule g' = gm_rule g.
Proof.
  intros E. destruct (try_play_inv _ _ _ _ _ E) as [(e & F & _)|(_ & _ & Ep)]; [discriminate|]. cbn in Ep. apply bind_ok in Ep as (u & _ & Ep). injection Ep as <-. repeat split.
Qed.

Lemma passes_line dbg n pts : Nat.divide (snd n) (fst n) -> pts <> [] -> forall b w g g', rgreach dbg n b w g -> (forall p, p ∈ pts -> ron n p) ->
  gm_turn g = Black -> all_accepted dbg g (with_passes pts) g' ->
  no_less g g' /\ (exists b' w', rgreach dbg n b' w' g' /\ b' + w' <= b + w + 2 * length pts) /\ gm_outcome g' = gm_outcome g /\ gm_rule g' = gm_rule g /\
  gm_turn g' = White /\ gm_passes g' = 0 /\
  (gm_prisoners g' = gm_prisoners g -> gm_ko_point g' = None /\
    forall q c, ron n q -> position g' q = Some c <-> position g q = Some c \/ q ∈ pts /\ c = Black).
Proof.
  intros Hd. induction pts as [|[x y] pts IH]; [congruence|]. intros _ b w g g' HG Hon Ht A.
  assert (Hp : ron n (x, y)) by (apply Hon; left).
  assert (exists g1, try_play dbg g (MPlay x y) = Ok (g1, Accepted) /\ match pts with [] => g' = g1 | _ => exists g2, try_play dbg g1 MPass = Ok (g2, Accepted) /\ all_accepted dbg g2 (with_passes pts) g' end) as (g1 & E & A').
  { destruct pts as [|q pts]; cbn [fst snd] in A.
    - destruct A as (g1 & E & A). exists g1. split; [exact E|exact A].
    - rewrite with_passes_cons in A. destruct A as (g1 & E & A). exists g1. split; [exact E|exact A]. }
  clear A. destruct (one_stone dbg n b w g x y g1 Hd HG Hp E) as (N1 & P1 & O1 & T1 & R1 & Q1). rewrite Ht in *.
  destruct (rgreach_try dbg n b w g (MPlay x y) g1 Accepted Hd HG ltac:(intros ? ? [= <- <-]; exact Hp) E) as (b1 & w1 & HG1 & L1).
  destruct pts as [|q pts].
  - subst g'. split; [exact N1|]. split; [exists b1, w1; split; [exact HG1|cbn; lia]|]. do 4 (split; [assumption|]). intros Pr. destruct (Q1 Pr) as (K & H). split; [exact K|].
    intros q c Hq. rewrite (H q c Hq), elem_of_list_singleton. split; (intros [F|F]; [left; exact F|right]); [injection F as -> ->; tauto|destruct F as [-> ->]; reflexivity].
  - destruct A' as (g2 & E2 & A). destruct (one_pass dbg g1 g2 E2) as (B2 & P2 & O2 & T2 & R2).
    destruct (rgreach_try dbg n b1 w1 g1 MPass g2 Accepted Hd HG1 ltac:(discriminate) E2) as (b2 & w2 & HG2 & L2).
    destruct (IH ltac:(discriminate) b2 w2 g2 g' HG2 ltac:(intros; apply Hon; right; assumption) ltac:(rewrite T2, T1; reflexivity) A) as (N3 & (b3 & w3 & HG3 & L3) & O3 & R3 & T3 & P3 & Q3).
    assert (N2 : no_less g1 g2) by (unfold no_less; rewrite P2; lia).
    split; [eapply no_less_trans; [exact N1|eapply no_less_trans; eassumption]|]. split; [exists b3, w3; split; [exact HG3|cbn [length] in *; lia]|].
    split; [congruence|]. split; [congruence|]. split; [exact T3|]. split; [exact P3|]. intros Pr.
    assert (gm_prisoners g1 = gm_prisoners g) as Pr1.
    { unfold no_less in *. rewrite Pr in N3. rewrite P2 in N3. destruct (gm_prisoners g1), (gm_prisoners g). cbn [fst snd] in *. f_equal; lia. }
    destruct (Q1 Pr1) as (K1 & H1). destruct (Q3 ltac:(congruence)) as (K3 & H3). split; [exact K3|].
    intros z c Hz. rewrite (H3 z c Hz). unfold position. rewrite B2. fold (position g1 z). rewrite (H1 z c Hz), (elem_of_cons (q :: pts)). fold (position g z).
    assert (X : (z, c) = ((x, y), Black) <-> z = (x, y) /\ c = Black) by (split; [intros [= -> ->]; tauto|intros [-> ->]; reflexivity]). rewrite X. tauto.
Qed.

(** ** Handicap stones *)
Theorem gift_now dbg dbg' n b w b' w' g pts g1 g2 : Nat.divide (snd n) (fst n) -> rgreach dbg n b w g -> rgreach dbg' n b' w' g ->
  pts <> [] -> NoDup pts -> (forall p, p ∈ pts -> ron n p /\ position g p = None) -> gm_turn g = Black -> gm_passes g = 0 -> gm_ko_point g = None ->
  put_handicap dbg g pts = Ok g1 -> all_accepted dbg' g (with_passes pts) g2 -> gm_prisoners g2 = gm_prisoners g ->
  same_now n g1 g2.
Proof.
  intros Hd HG HH Hne Nd Hon Ht Hps Hk E A Pr.
  destruct (rginv_handicap dbg n b w g pts g1 (rgreach_inv _ _ _ _ _ Hd HG) Nd Hon E) as (_ & HP).
  destruct (passes_line dbg' n pts Hd Hne b' w' g g2 HH ltac:(intros; apply Hon; assumption) Ht A) as (_ & _ & O2 & R2 & T2 & P2 & Q2). destruct (Q2 Pr) as (K2 & H2).
  unfold put_handicap in E. apply bind_ok in E as (gb & _ & E). injection E as <-. constructor; cbn [gm_turn gm_passes gm_outcome gm_ko_point gm_prisoners gm_rule]; try congruence.
  intros p Hp. unfold position at 1. rewrite (HP p Hp). symmetry. destruct (decide (p ∈ pts)) as [i|i].
  - apply (H2 p Black Hp). right. split; [exact i|reflexivity].
  - fold (position g p). destruct (position g p) as [c|] eqn:F; [apply (H2 p c Hp); left; exact F|]. destruct (position g2 p) as [c|] eqn:F2; [|reflexivity].
    destruct (proj1 (H2 p c Hp) F2) as [X|X]; [congruence|tauto].
Qed.

Theorem gift_line dbg dbg' n b w b' w' g pts g1 g2 rest : Nat.divide (snd n) (fst n) -> rgreach dbg n b w g -> rgreach dbg' n b' w' g ->
  pts <> [] -> NoDup pts -> (forall p, p ∈ pts -> ron n p /\ position g p = None) -> gm_turn g = Black -> gm_passes g = 0 -> gm_ko_point g = None ->
  put_handicap dbg g pts = Ok g1 -> all_accepted dbg' g (with_passes pts) g2 -> gm_prisoners g2 = gm_prisoners g ->
  forbids_superko (gm_rule g) = false -> (forall x y, MPlay x y ∈ rest -> ron n (x, y)) ->
  (N.of_nat (b + w + length pts + length rest) <= 65535)%N -> (N.of_nat (b' + w' + 2 * length pts + length rest) <= 65535)%N ->
  exists g1' g2' tr, run dbg g1 (List.map OTry rest) = Ok (g1', tr) /\ run dbg' g2 (List.map OTry rest) = Ok (g2', tr) /\ same_now n g1' g2'.
Proof.
  intros Hd HG HH Hne Nd Hon Ht Hps Hk E A Pr SK Or L L'.
  pose proof (gift_now dbg dbg' n b w b' w' g pts g1 g2 Hd HG HH Hne Nd Hon Ht Hps Hk E A Pr) as N.
  pose proof (rg_handicap dbg n b w g pts g1 HG Nd Hon E) as HG1.
  destruct (passes_line dbg' n pts Hd Hne b' w' g g2 HH ltac:(intros; apply Hon; assumption) Ht A) as (_ & (b2 & w2 & HG2 & L2) & _).
  apply (past_run n dbg dbg' rest Hd _ _ _ _ g1 g2 HG1 HG2 N); [|exact Or|lia|lia].
  unfold put_handicap in E. apply bind_ok in E as (gb & _ & E). injection E as <-. exact SK.
Qed.

(** the score is the same too, under every rule *)
Theorem gift_score dbg dbg' order order' n b w b' w' g pts g1 g2 flags : Nat.divide (snd n) (fst n) -> rgreach dbg n b w g -> rgreach dbg' n b' w' g ->
  pts <> [] -> NoDup pts -> (forall p, p ∈ pts -> ron n p /\ position g p = None) -> gm_turn g = Black -> gm_passes g = 0 -> gm_ko_point g = None ->
  put_handicap dbg g pts = Ok g1 -> all_accepted dbg' g (with_passes pts) g2 -> gm_prisoners g2 = gm_prisoners g ->
  (forall l, order l ≡ₚ l) -> (forall l, order' l ≡ₚ l) ->
  exists s o, calculate_score_by order dbg g1 flags = Ok s /\ calculate_score_by order' dbg' g2 flags = Ok s /\ outcome order dbg g1 = Ok o /\ outcome order' dbg' g2 = Ok o.
Proof.
  intros Hd HG HH Hne Nd Hon Ht Hps Hk E A Pr Or Or'.
  pose proof (gift_now dbg dbg' n b w b' w' g pts g1 g2 Hd HG HH Hne Nd Hon Ht Hps Hk E A Pr) as N.
  pose proof (rg_handicap dbg n b w g pts g1 HG Nd Hon E) as HG1.
  destruct (passes_line dbg' n pts Hd Hne b' w' g g2 HH ltac:(intros; apply Hon; assumption) Ht A) as (_ & (b2 & w2 & HG2 & L2) & _).
  exact (past_score n order order' dbg dbg' _ _ _ _ g1 g2 flags Hd HG1 HG2 Or Or' N).
Qed.
