(** Openings without captures may be played in any order. *)
From stdpp Require Import relations.
From Verif Require Import OrderSpec ScoreSpec RoundSpec.
From Verif Require Import MonadFacts Spec Game Builder Struct Push Inv Remove Capture Bridge GameFacts RulesFacts LegalFacts LegalsFacts CheckFacts ClaimFacts LongFacts SymFacts SymGame SymScore ScoreFacts ReprFacts RectCount RectCoord RectBridge RectRules RectKo RectBoard RectCheck RectEye RectVerdict.
From Verif Require Import RectScore RectSpec RectReach RectVerdictSpec RectTableSpec RectInv RectGame RectMoves RectLegal RectTable RectReachFacts RectSymFacts RectSymGame RectSymClaims RectCountScore StrategyFacts StealFacts KomiClaims ValueFacts PastFacts.
From Coq Require Import Lia.

Local Notation length := Datatypes.length.
Local Open Scope nat_scope.

Lemma move_sub s n P p c R q d : rgo_move s n P p c R -> ron n q -> R q = Some d -> put P p c q = Some d.
Proof.
  intros (Q & C1 & C2) Hq E. destruct (C2 q Hq) as [D1 D2]. destruct (C1 q Hq) as [D3 D4].
  rewrite <- E, D2 by (intros F; rewrite (D1 F) in E; discriminate). symmetry. apply D4. intros F. rewrite D2 in E by (intros F'; rewrite (D1 F') in E; discriminate).
  rewrite (D3 F) in E. discriminate.
Qed.

Lemma move_taken s n P p c R q : rgo_move s n P p c R -> ron n q -> rtaken n (put P p c) p c q -> R q = None.
Proof.
  intros (Q & C1 & C2) Hq T. destruct (R q) as [d|] eqn:E; [|reflexivity]. destruct (C2 q Hq) as [D1 D2]. destruct (C1 q Hq) as [D3 _].
  rewrite D2 in E by (intros F'; rewrite (D1 F') in E; discriminate). rewrite (D3 T) in E. discriminate.
Qed.

(** a smaller position with as many stones is the same *)
Lemma sub_count n P Q c : (forall q, ron n q -> Q q = Some c -> P q = Some c) -> rcount n P c <= rcount n Q c -> forall q, ron n q -> P q = Some c -> Q q = Some c.
Proof.
  intros S L. unfold rcount in L.
  assert (Sub : filter (fun p => Q p = Some c) (rpoints n) ⊆+ filter (fun p => P p = Some c) (rpoints n)).
  { apply NoDup_submseteq; [apply NoDup_filter, NoDup_rpoints|]. intros x Hx. apply elem_of_list_filter in Hx as [Hx Ho]. apply elem_of_list_filter. split; [|exact Ho]. apply S; [apply elem_of_rpoints, Ho|exact Hx]. }
  pose proof (submseteq_Permutation_length_le _ _ L Sub) as Pm. intros q Hq E.
  assert (q ∈ filter (fun p => P p = Some c) (rpoints n)) as H by (apply elem_of_list_filter; split; [exact E|apply elem_of_rpoints, Hq]).
  rewrite <- Pm in H. apply elem_of_list_filter in H. tauto.
Qed.

Lemma sub_count_le n P Q c : (forall q, ron n q -> Q q = Some c -> P q = Some c) -> rcount n Q c <= rcount n P c.
Proof.
  intros S. unfold rcount. apply submseteq_length, NoDup_submseteq; [apply NoDup_filter, NoDup_rpoints|].
  intros x Hx. apply elem_of_list_filter in Hx as [Hx Ho]. apply elem_of_list_filter. split; [|exact Ho]. apply S; [apply elem_of_rpoints, Ho|exact Hx].
Qed.

Definition no_less (g g' : game) : Prop := (fst (gm_prisoners g) <= fst (gm_prisoners g') /\ snd (gm_prisoners g) <= snd (gm_prisoners g'))%N.

(** ** One accepted stone *)
Section One.
  Context (dbg : bool) (n : size_t) (b w : nat) (g : game) (x y : nat) (g' : game).
  Hypothesis Hd : Nat.divide (snd n) (fst n).
  Hypothesis HG : rgreach dbg n b w g.
  Hypothesis Hp : ron n (x, y).
  Hypothesis E : try_play dbg g (MPlay x y) = Ok (g', Accepted).

  Lemma one_stone : no_less g g' /\ gm_passes g' = 0 /\ gm_outcome g' = gm_outcome g /\ gm_turn g' = opp (gm_turn g) /\ gm_rule g' = gm_rule g /\
    (gm_prisoners g' = gm_prisoners g -> gm_ko_point g' = None /\
      forall q c, ron n q -> position g' q = Some c <-> position g q = Some c \/ (q, c) = ((x, y), gm_turn g)).
  Proof using All.
    pose proof (rgreach_inv _ _ _ _ _ Hd HG) as G.
    destruct (raccepted_empty dbg n g x y g' (rgi_wf _ _ _ _ G) (rgi_hist _ _ _ _ G) Hp E) as (He & _).
    destruct (try_play_inv _ _ _ _ _ E) as [(e & F & _)|(_ & _ & Ep)]; [discriminate|].
    destruct (rplay_spec dbg n b w g x y G Hp He) as [[F _]|(g1 & E1 & G1 & M & _ & A1 & A2 & A3 & A4 & _ & _ & K)]; [congruence|]. rewrite Ep in E1. injection E1 as <-.
    pose proof (fun c q H => move_sub _ _ _ _ _ _ q c M H) as Sub.
    pose proof (sub_count_le n (put (pos_of (gm_goban g)) (x, y) (gm_turn g)) (pos_of (gm_goban g')) Black (Sub Black)) as CB.
    pose proof (sub_count_le n (put (pos_of (gm_goban g)) (x, y) (gm_turn g)) (pos_of (gm_goban g')) White (Sub White)) as CW.
    pose proof (rcount_put n _ (x, y) (gm_turn g) Black Hp He) as PB. pose proof (rcount_put n _ (x, y) (gm_turn g) White Hp He) as PW.
    pose proof (rgi_black _ _ _ _ G) as B0. pose proof (rgi_white _ _ _ _ G) as W0. pose proof (rgi_black _ _ _ _ G1) as B1. pose proof (rgi_white _ _ _ _ G1) as W1.
    split.
    { unfold no_less. destruct (gm_turn g); cbn [bump_count fst snd] in *; repeat destruct (decide _); try discriminate; lia. }
    do 4 (split; [assumption|]). intros Pr. rewrite Pr in *.
    assert (All : forall q c, ron n q -> put (pos_of (gm_goban g)) (x, y) (gm_turn g) q = Some c -> pos_of (gm_goban g') q = Some c).
    { intros q c. revert q. apply sub_count; [exact (Sub c)|]. destruct c, (gm_turn g); cbn [bump_count fst snd] in *; repeat destruct (decide _); try discriminate; lia. }
    split.
    - destruct (gm_ko_point g') as [q|] eqn:Ek; [|reflexivity]. exfalso. destruct (proj1 (K q) eq_refl) as (Hq & T & _).
      pose proof (move_taken _ _ _ _ _ _ q M Hq T) as N. destruct T as (t & _ & _ & Pt & Ct & _). rewrite (rconnected_same n _ _ _ Ct) in Pt.
      rewrite (All q _ Hq Pt) in N. discriminate.
    - intros q c Hq. unfold position. split.
      + intros F. apply (Sub c q Hq) in F. unfold put in F. destruct (decide (q = (x, y))) as [->|]; [|left; exact F]. right. injection F as ->. reflexivity.
      + intros F. apply (All q c Hq). unfold put. destruct (decide (q = (x, y))) as [->|]; [destruct F as [F|F]; [congruence|injection F as ->; reflexivity]|].
        destruct F as [F|F]; [exact F|injection F; congruence].
  Qed.
End One.

(** ** Lists *)
Lemma no_less_trans a b c : no_less a b -> no_less b c -> no_less a c.
Proof. unfold no_less. lia. Qed.

Lemma stones_line dbg n ms : Nat.divide (snd n) (fst n) -> forall b w g g' l, rgreach dbg n b w g -> (forall x y, MPlay x y ∈ ms -> ron n (x, y)) ->
  all_accepted dbg g ms g' -> laid_stones (gm_turn g) ms = Some l ->
  no_less g g' /\ (exists b' w', rgreach dbg n b' w' g' /\ b' + w' <= b + w + length ms) /\ gm_outcome g' = gm_outcome g /\ gm_rule g' = gm_rule g /\
  gm_turn g' = (if Nat.even (length l) then gm_turn g else opp (gm_turn g)) /\ gm_passes g' = (if length l =? 0 then gm_passes g else 0) /\
  (gm_prisoners g' = gm_prisoners g -> gm_ko_point g' = (if length l =? 0 then gm_ko_point g else None) /\
    forall q c, ron n q -> position g' q = Some c <-> position g q = Some c \/ (q, c) ∈ l).
Proof.
  intros Hd. induction ms as [|m ms IH]; intros b w g g' l HG Hon A S.
  - cbn in A, S. subst g'. injection S as <-. cbn. split; [unfold no_less; lia|]. split; [exists b, w; split; [exact HG|lia]|]. do 4 (split; [reflexivity|]).
    intros _. split; [reflexivity|]. intros q c _. rewrite elem_of_nil. tauto.
  - destruct m as [|c|x y]; try discriminate S. cbn [laid_stones] in S. destruct (laid_stones (opp (gm_turn g)) ms) as [l1|] eqn:S1; [|discriminate]. injection S as <-.
    destruct A as (g1 & E & A). assert (Hp : ron n (x, y)) by (apply Hon; left).
    destruct (one_stone dbg n b w g x y g1 Hd HG Hp E) as (N1 & P1 & O1 & T1 & R1 & Q1).
    destruct (rgreach_try dbg n b w g (MPlay x y) g1 Accepted Hd HG ltac:(intros ? ? [= <- <-]; exact Hp) E) as (b1 & w1 & HG1 & L1).
    destruct (IH b1 w1 g1 g' l1 HG1 ltac:(intros; apply Hon; right; assumption) A ltac:(rewrite T1; exact S1)) as (N2 & (b2 & w2 & HG2 & L2) & O2 & R2 & T2 & P2 & Q2).
    split; [eapply no_less_trans; eassumption|]. split; [exists b2, w2; split; [exact HG2|cbn [length]; lia]|]. split; [congruence|]. split; [congruence|].
    split; [|split].
    + rewrite T2, T1. change (length (((x, y), gm_turn g) :: l1)) with (S (length l1)). rewrite Nat.even_succ, <- Nat.negb_even. destruct (Nat.even (length l1)); cbn [negb]; [reflexivity|destruct (gm_turn g); reflexivity].
    + rewrite P2, P1. cbn. destruct (length l1 =? 0); reflexivity.
    + intros Pr. assert (gm_prisoners g1 = gm_prisoners g) as Pr1.
      { unfold no_less in *. rewrite Pr in N2. destruct (gm_prisoners g1), (gm_prisoners g). cbn [fst snd] in *. f_equal; lia. }
      destruct (Q1 Pr1) as (K1 & H1). destruct (Q2 ltac:(congruence)) as (K2 & H2). split; [rewrite K2, K1; cbn; destruct (length l1 =? 0); reflexivity|].
      intros q c Hq. rewrite (H2 q c Hq), (H1 q c Hq), elem_of_cons. tauto.
Qed.

(** ** Two orders *)
Theorem two_orders dbg dbg' n b w b' w' g ms ms' l l' g1 g2 : Nat.divide (snd n) (fst n) -> rgreach dbg n b w g -> rgreach dbg' n b' w' g ->
  (forall x y, MPlay x y ∈ ms -> ron n (x, y)) -> (forall x y, MPlay x y ∈ ms' -> ron n (x, y)) ->
  laid_stones (gm_turn g) ms = Some l -> laid_stones (gm_turn g) ms' = Some l' -> l ≡ₚ l' ->
  all_accepted dbg g ms g1 -> all_accepted dbg' g ms' g2 -> gm_prisoners g1 = gm_prisoners g -> gm_prisoners g2 = gm_prisoners g ->
  same_now n g1 g2.
Proof.
  intros Hd HG HH On On' S S' P A A' Pr Pr'.
  destruct (stones_line dbg n ms Hd b w g g1 l HG On A S) as (_ & _ & O1 & R1 & T1 & P1 & Q1). destruct (Q1 Pr) as (K1 & H1).
  destruct (stones_line dbg' n ms' Hd b' w' g g2 l' HH On' A' S') as (_ & _ & O2 & R2 & T2 & P2 & Q2). destruct (Q2 Pr') as (K2 & H2).
  pose proof (Permutation_length P) as L. constructor; try congruence.
  - intros p Hp. assert (X : forall c, position g1 p = Some c <-> position g2 p = Some c).
    { intros c. rewrite (H1 p c Hp), (H2 p c Hp), P. reflexivity. }
    destruct (position g1 p) as [c|] eqn:E1; [symmetry; apply X; reflexivity|]. destruct (position g2 p) as [c|] eqn:E2; [|reflexivity].
    discriminate (proj2 (X c) eq_refl).
  - rewrite T1, T2, L. reflexivity.
  - rewrite P1, P2, L. reflexivity.
  - rewrite K1, K2, L. reflexivity.
Qed.

(** and what follows is answered alike, without superko *)
Theorem two_orders_line dbg dbg' n b w b' w' g ms ms' l l' g1 g2 rest : Nat.divide (snd n) (fst n) -> rgreach dbg n b w g -> rgreach dbg' n b' w' g ->
  (forall x y, MPlay x y ∈ ms -> ron n (x, y)) -> (forall x y, MPlay x y ∈ ms' -> ron n (x, y)) ->
  laid_stones (gm_turn g) ms = Some l -> laid_stones (gm_turn g) ms' = Some l' -> l ≡ₚ l' ->
  all_accepted dbg g ms g1 -> all_accepted dbg' g ms' g2 -> gm_prisoners g1 = gm_prisoners g -> gm_prisoners g2 = gm_prisoners g ->
  forbids_superko (gm_rule g) = false -> (forall x y, MPlay x y ∈ rest -> ron n (x, y)) ->
  (N.of_nat (b + w + length ms + length rest) <= 65535)%N -> (N.of_nat (b' + w' + length ms' + length rest) <= 65535)%N ->
  exists g1' g2' tr, run dbg g1 (List.map OTry rest) = Ok (g1', tr) /\ run dbg' g2 (List.map OTry rest) = Ok (g2', tr) /\ same_now n g1' g2'.
Proof.
  intros Hd HG HH On On' S S' P A A' Pr Pr' SK Or L L'.
  pose proof (two_orders dbg dbg' n b w b' w' g ms ms' l l' g1 g2 Hd HG HH On On' S S' P A A' Pr Pr') as N.
  destruct (stones_line dbg n ms Hd b w g g1 l HG On A S) as (_ & (b1 & w1 & HG1 & L1) & _ & R1 & _).
  destruct (stones_line dbg' n ms' Hd b' w' g g2 l' HH On' A' S') as (_ & (b2 & w2 & HG2 & L2) & _).
  apply (past_run n dbg dbg' rest Hd b1 w1 b2 w2 g1 g2 HG1 HG2 N); [rewrite R1; exact SK|exact Or|lia|lia].
Qed.
