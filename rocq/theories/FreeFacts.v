(** When nothing is captured in one order, every order is accepted. *)
From stdpp Require Import relations.
From Verif Require Import OrderSpec VerdictSpec.
From Verif Require Import MonadFacts Spec Game Builder Struct Push Inv Remove Capture Bridge GameFacts RulesFacts LegalFacts LegalsFacts CheckFacts ClaimFacts LongFacts SymFacts SymGame SymScore ScoreFacts ReprFacts RectCount RectCoord RectBridge RectRules RectKo RectBoard RectCheck RectEye RectVerdict.
From Verif Require Import RectScore RectSpec RectReach RectVerdictSpec RectTableSpec RectInv RectGame RectMoves RectLegal RectTable RectReachFacts RectSymFacts RectSymGame RectSymClaims RectCases PastFacts OrderFacts.
From Coq Require Import Lia.

Local Notation length := Datatypes.length.
Local Open Scope nat_scope.

(** ** Parts of a position in which every chain breathes *)
Definition part (n : nat * nat) (P F : pos) : Prop := forall q c, ron n q -> P q = Some c -> F q = Some c.

Lemma part_breathes n P F : part n P F -> rall_breathe n F -> rall_breathe n P.
Proof.
  intros Sub A p Hp Pp. destruct (P p) as [c|] eqn:E; [|congruence]. clear Pp.
  destruct (A p Hp ltac:(rewrite (Sub p c Hp E); discriminate)) as (l & Hl & Fl & q & C & J).
  assert (X : forall a, rconnected n F a q -> rconnected n P p a -> ron n a -> P a = Some c -> rbreathes n P p).
  { intros a H. unfold rconnected in H. induction H as [a|a b z S H IH]; intros Ca Ha Pa.
    - exists l. split; [exact Hl|]. split; [|exists a; split; assumption]. destruct (P l) as [d|] eqn:El; [|reflexivity]. rewrite (Sub l d Hl El) in Fl. discriminate.
    - destruct S as (_ & Hb & Ab & Fab). destruct (P b) as [d|] eqn:Eb.
      + assert (Some d = Some c) as [= ->] by (rewrite <- (Sub b d Hb Eb), <- Fab; apply Sub; assumption).
        apply IH; [exact C|exact J| |exact Hb|reflexivity]. eapply rconnected_trans; [exact Ca|]. apply rtc_once. repeat split; try apply Ha; try apply Hb; try assumption. congruence.
      + exists b. split; [exact Hb|]. split; [exact Eb|]. exists a. split; assumption. }
  apply (X p C); [apply rtc_refl|exact Hp|exact E].
Qed.

(** ** One stone of such a position *)
Lemma free_stone dbg n b w h x y F : Nat.divide (snd n) (fst n) -> rgreach dbg n b w h -> ron n (x, y) -> position h (x, y) = None ->
  part n (put (position h) (x, y) (gm_turn h)) F -> rall_breathe n F -> gm_passes h <> 2 -> gm_ko_point h = None -> forbids_fill_eye (gm_rule h) = false ->
  (N.of_nat (b + w) < 65535)%N ->
  exists h', try_play dbg h (MPlay x y) = Ok (h', Accepted) /\ gm_prisoners h' = gm_prisoners h.
Proof.
  intros Hd HG Hp He Sub A Hps Hk Hf L. pose proof (part_breathes n _ F Sub A) as B.
  assert (NT : forall q, ~ rtaken n (put (position h) (x, y) (gm_turn h)) (x, y) (gm_turn h) q).
  { intros q (t & Ht & _ & Pt & _ & N). apply N, B; [exact Ht|congruence]. }
  assert (Own : rbreathes n (put (position h) (x, y) (gm_turn h)) (x, y)) by (apply B; [exact Hp|rewrite put_at; discriminate]).
  assert (NQ : forall Q, rcleared n (rtaken n (put (position h) (x, y) (gm_turn h)) (x, y) (gm_turn h)) (put (position h) (x, y) (gm_turn h)) Q -> rsame_pos n (put (position h) (x, y) (gm_turn h)) Q).
  { intros Q C q Hq. symmetry. apply C; [exact Hq|apply NT]. }
  destruct (proj2 (rverdict_exact dbg n b w h x y Accepted Hd HG Hp (rfew dbg n b w h Hd HG L))) as (h' & E).
  { unfold rjudged, first_reason, rreasons, rpoint_reasons. repeat apply Forall_cons_2; try apply Forall_nil_2; cbn [snd t_pos t_turn t_passes t_ko table_of].
    - exact Hps.
    - congruence.
    - intros (_ & Q & C & N). apply N, (rbreathes_ext n _ _ _ (NQ Q C)), Own.
    - intros (_ & K & _). cbn [t_ko table_of] in K. congruence.
    - intros (K & _). unfold forbids_fill_eye in Hf. unfold no_fill_eye in K. congruence.
    - intros (_ & _ & (q & _ & T) & _). exact (NT q T). }
  exists h'. split; [exact E|].
  pose proof (rgreach_inv _ _ _ _ _ Hd HG) as G. destruct (try_play_inv _ _ _ _ _ E) as [(e & X & _)|(_ & _ & Ep)]; [discriminate|].
  destruct (rplay_spec dbg n b w h x y G Hp He) as [[X _]|(g1 & E1 & G1 & (Q & C1 & C2) & _)]; [congruence|]. rewrite Ep in E1. injection E1 as <-.
  assert (S1 : rsame_pos n (put (position h) (x, y) (gm_turn h)) (position h')).
  { intros q Hq. rewrite (NQ Q C1 q Hq). symmetry. apply C2; [exact Hq|]. intros (_ & N & _). apply N, (rbreathes_ext n _ _ _ (NQ Q C1)), Own. }
  pose proof (rcount_same n _ _ Black S1) as CB. pose proof (rcount_same n _ _ White S1) as CW.
  pose proof (rcount_put n _ (x, y) (gm_turn h) Black Hp He) as PB. pose proof (rcount_put n _ (x, y) (gm_turn h) White Hp He) as PW.
  pose proof (rgi_black _ _ _ _ G) as B0. pose proof (rgi_white _ _ _ _ G) as W0. pose proof (rgi_black _ _ _ _ G1) as B1. pose proof (rgi_white _ _ _ _ G1) as W1. change (position h) with (pos_of (gm_goban h)) in *. change (position h') with (pos_of (gm_goban h')) in *.
  destruct (gm_prisoners h'), (gm_prisoners h). destruct (gm_turn h); cbn [bump_count fst snd] in *; repeat destruct (decide _); try congruence; f_equal; lia.
Qed.

(** ** Lists *)
Lemma laid_on c ms l x y : laid_stones c ms = Some l -> MPlay x y ∈ ms -> (x, y) ∈ l.*1.
Proof.
  revert c l. induction ms as [|m ms IH]; intros c l E H; [inversion H|]. destruct m as [|d|x' y']; try discriminate E. cbn in E.
  destruct (laid_stones (opp c) ms) as [l1|] eqn:E1; [|discriminate]. injection E as <-. apply elem_of_cons in H as [[= -> ->]|H]; [left|right]. exact (IH _ _ E1 H).
Qed.

Lemma laid_play c ms l x y : laid_stones c ms = Some l -> (x, y) ∈ l.*1 -> MPlay x y ∈ ms.
Proof.
  revert c l. induction ms as [|m ms IH]; intros c l E H; [injection E as <-; inversion H|]. destruct m as [|d|x' y']; try discriminate E. cbn in E.
  destruct (laid_stones (opp c) ms) as [l1|] eqn:E1; [|discriminate]. injection E as <-. apply elem_of_cons in H as [H|H]; [cbn in H; injection H as -> ->; left|right]. exact (IH _ _ E1 H).
Qed.

Lemma laid_length c ms l : laid_stones c ms = Some l -> length ms = length l.
Proof.
  revert c l. induction ms as [|m ms IH]; intros c l E; [injection E as <-; reflexivity|]. destruct m as [|d|x' y']; try discriminate E. cbn in E.
  destruct (laid_stones (opp c) ms) as [l1|] eqn:E1; [|discriminate]. injection E as <-. cbn. f_equal. exact (IH _ _ E1).
Qed.

(** the points of an accepted list without captures are different and empty *)
Lemma laid_fresh dbg n ms : Nat.divide (snd n) (fst n) -> forall b w g g' l, rgreach dbg n b w g -> (forall x y, MPlay x y ∈ ms -> ron n (x, y)) ->
  all_accepted dbg g ms g' -> laid_stones (gm_turn g) ms = Some l -> gm_prisoners g' = gm_prisoners g ->
  NoDup l.*1 /\ forall q, q ∈ l.*1 -> position g q = None.
Proof.
  intros Hd. induction ms as [|m ms IH]; intros b w g g' l HG Hon A S Pr.
  - injection S as <-. split; [constructor|]. intros q H. inversion H.
  - destruct m as [|c|x y]; try discriminate S. cbn [laid_stones] in S. destruct (laid_stones (opp (gm_turn g)) ms) as [l1|] eqn:S1; [|discriminate]. injection S as <-.
    destruct A as (g1 & E & A). assert (Hp : ron n (x, y)) by (apply Hon; left).
    destruct (one_stone dbg n b w g x y g1 Hd HG Hp E) as (N1 & P1 & O1 & T1 & R1 & Q1).
    destruct (rgreach_try dbg n b w g (MPlay x y) g1 Accepted Hd HG ltac:(intros ? ? [= <- <-]; exact Hp) E) as (b1 & w1 & HG1 & L1). rewrite <- T1 in S1.
    destruct (stones_line dbg n ms Hd b1 w1 g1 g' l1 HG1 ltac:(intros; apply Hon; right; assumption) A S1) as (N2 & _).
    assert (gm_prisoners g1 = gm_prisoners g) as Pr1.
    { unfold no_less in *. rewrite Pr in N2. destruct (gm_prisoners g1), (gm_prisoners g). cbn [fst snd] in *. f_equal; lia. }
    destruct (Q1 Pr1) as (_ & H1).
    destruct (IH b1 w1 g1 g' l1 HG1 ltac:(intros; apply Hon; right; assumption) A S1 ltac:(congruence)) as (Nd & Em).
    pose proof (rgreach_inv _ _ _ _ _ Hd HG) as G.
    destruct (raccepted_empty dbg n g x y g1 (rgi_wf _ _ _ _ G) (rgi_hist _ _ _ _ G) Hp E) as (He & _).
    split; [cbn [fmap list_fmap fst]; constructor; [|exact Nd]|].
    + intros H. apply Em in H. rewrite (proj2 (H1 (x, y) (gm_turn g) Hp) (or_intror eq_refl)) in H. discriminate.
    + intros q H. apply elem_of_cons in H as [->|H]; [exact He|]. assert (Hq : ron n q).
      { destruct q as [qx qy]. apply Hon. right. exact (laid_play _ _ _ _ _ S1 H). }
      destruct (position g q) as [c|] eqn:F; [|reflexivity]. pose proof (proj2 (H1 q c Hq) (or_introl F)) as X. rewrite (Em q H) in X. discriminate.
Qed.

(** the stones of a position in which every chain breathes, in any order *)
Lemma free_line dbg n F ms : Nat.divide (snd n) (fst n) -> rall_breathe n F -> forall b w h l, rgreach dbg n b w h -> laid_stones (gm_turn h) ms = Some l ->
  (forall q, q ∈ l.*1 -> ron n q) -> NoDup l.*1 -> (forall q, q ∈ l.*1 -> position h q = None) -> (forall q c, (q, c) ∈ l -> F q = Some c) -> part n (position h) F ->
  (ms <> [] -> gm_passes h <> 2) -> gm_ko_point h = None -> forbids_fill_eye (gm_rule h) = false -> (N.of_nat (b + w + length ms) < 65535)%N ->
  exists h', all_accepted dbg h ms h' /\ gm_prisoners h' = gm_prisoners h.
Proof.
  intros Hd A. induction ms as [|m ms IH]; intros b w h l HG S Hon Nd Em HF Sub Hps Hk Hf L; [exists h; split; reflexivity|].
  destruct m as [|c|x y]; try discriminate S. cbn [laid_stones] in S. destruct (laid_stones (opp (gm_turn h)) ms) as [l1|] eqn:S1; [|discriminate]. injection S as <-.
  cbn [fmap list_fmap fst] in *. apply NoDup_cons in Nd as [Nx Nd]. assert (Hp : ron n (x, y)) by (apply Hon; left). cbn [length] in L.
  assert (Sub1 : part n (put (position h) (x, y) (gm_turn h)) F).
  { intros q d Hq E. unfold put in E. destruct (decide (q = (x, y))) as [->|]; [injection E as <-; apply HF; left|exact (Sub q d Hq E)]. }
  destruct (free_stone dbg n b w h x y F Hd HG Hp ltac:(apply Em; left) Sub1 A ltac:(apply Hps; discriminate) Hk Hf ltac:(lia)) as (h1 & E & Pr).
  destruct (one_stone dbg n b w h x y h1 Hd HG Hp E) as (_ & P1 & _ & T1 & R1 & Q1). destruct (Q1 Pr) as (K1 & H1).
  destruct (rgreach_try dbg n b w h (MPlay x y) h1 Accepted Hd HG ltac:(intros ? ? [= <- <-]; exact Hp) E) as (b1 & w1 & HG1 & L1).
  destruct (IH b1 w1 h1 l1 HG1 ltac:(rewrite T1; exact S1) ltac:(intros; apply Hon; right; assumption) Nd) as (h' & A' & Pr').
  - intros q Hq. destruct (position h1 q) as [d|] eqn:X; [|reflexivity]. assert (Hqn : ron n q) by (apply Hon; right; exact Hq).
    destruct (proj1 (H1 q d Hqn) X) as [Y|Y]; [rewrite Em in Y by (right; exact Hq); discriminate|]. injection Y as -> ->. contradiction.
  - intros q d Hq. apply HF. right. exact Hq.
  - intros q d Hq X. destruct (proj1 (H1 q d Hq) X) as [Y|Y]; [exact (Sub q d Hq Y)|]. apply HF. rewrite Y. left.
  - rewrite P1. discriminate.
  - exact K1.
  - rewrite R1. exact Hf.
  - lia.
  - exists h'. split; [exists h1; split; [exact E|exact A']|congruence].
Qed.

Theorem free_orders dbg dbg' n b w b' w' g ms ms' l l' g1 : Nat.divide (snd n) (fst n) -> rgreach dbg n b w g -> rgreach dbg' n b' w' g ->
  (forall x y, MPlay x y ∈ ms -> ron n (x, y)) ->
  laid_stones (gm_turn g) ms = Some l -> laid_stones (gm_turn g) ms' = Some l' -> l ≡ₚ l' ->
  all_accepted dbg g ms g1 -> gm_prisoners g1 = gm_prisoners g -> rall_breathe n (position g1) ->
  gm_ko_point g = None -> forbids_fill_eye (gm_rule g) = false -> (N.of_nat (b' + w' + length ms') < 65535)%N ->
  exists g2, all_accepted dbg' g ms' g2 /\ gm_prisoners g2 = gm_prisoners g /\ same_now n g1 g2.
Proof.
  intros Hd HG HH On S S' P A Pr B Hk Hf L.
  destruct (laid_fresh dbg n ms Hd b w g g1 l HG On A S Pr) as (Nd & Em).
  destruct (stones_line dbg n ms Hd b w g g1 l HG On A S) as (_ & _ & _ & _ & _ & _ & Q1). destruct (Q1 Pr) as (_ & H1).
  assert (P1 : l.*1 ≡ₚ l'.*1) by (apply fmap_Permutation, P).
  assert (On1 : forall q, q ∈ l.*1 -> ron n q) by (intros [x y] H; apply On; exact (laid_play _ _ _ _ _ S H)).
  assert (On' : forall q, q ∈ l'.*1 -> ron n q) by (intros q H; apply On1; rewrite P1; exact H).
  destruct (free_line dbg' n (position g1) ms' Hd B b' w' g l' HH S' On') as (g2 & A2 & Pr2); try assumption.
  - rewrite <- P1. exact Nd.
  - intros q H. apply Em. rewrite P1. exact H.
  - intros q c H. apply H1; [|right; rewrite P; exact H]. apply On'. apply elem_of_list_fmap. exists (q, c). split; [reflexivity|exact H].
  - intros q c Hq E. apply H1; [exact Hq|left; exact E].
  - intros N. destruct ms as [|m ms].
    + injection S as <-. apply Permutation_nil_l in P. subst l'. apply laid_length in S'. destruct ms'; [congruence|discriminate].
    + destruct A as (g3 & E & _). destruct (try_play_inv _ _ _ _ _ E) as [(e & F & _)|(_ & X & _)]; [discriminate|exact X].
  - exists g2. split; [exact A2|]. split; [exact Pr2|].
    apply (two_orders dbg dbg' n b w b' w' g ms ms' l l' g1 g2 Hd HG HH On); try assumption.
    intros x y H. apply On'. exact (laid_on _ _ _ _ _ S' H).
Qed.
