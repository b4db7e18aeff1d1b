(** Strategy stealing: without komi the first player does not lose. *)
From stdpp Require Import relations.
From Verif Require Import StrategySpec SymSpec ScoreSpec RoundSpec.
From Verif Require Import MonadFacts Spec Game Builder Struct Push Inv Remove Capture Bridge GameFacts RulesFacts LegalFacts LegalsFacts CheckFacts ClaimFacts LongFacts SymFacts SymGame PerftFacts.
From Verif Require Import RectSymSpec RectSpec RectReach RectVerdictSpec RectTableSpec RectInv RectGame RectMoves RectLegal RectTable RectReachFacts RectSymFacts RectSymGame RectSymClaims RectSwap StrategyFacts.
From Coq Require Import Lia.

Local Notation length := Datatypes.length.
Local Open Scope nat_scope.

(** [h] is [g] with the colours exchanged *)
Record swapped (dbg : bool) (n : size_t) (g h : game) : Prop := mkSwapped {
  sw_size : Nat.divide (snd n) (fst n);
  sw_left : exists b w, rgreach dbg n b w g;
  sw_right : exists b w, rgreach dbg n b w h;
  sw_game : rimage_game n (fun p => p) opp g h;
  sw_history : rimage_history n (fun p => p) opp g h;
  sw_caught : image_caught opp g h;
  sw_rule : gm_rule h = gm_rule g;
  sw_length : length (chains (gm_goban h)) = length (chains (gm_goban g))
}.

Lemma map_opp_back {A} (f : A -> A) (o o' : option A) : (forall x, f (f x) = x) -> o' = option_map f o -> o = option_map f o'.
Proof. intros H ->. destruct o; cbn; [rewrite H|]; reflexivity. Qed.

Lemma image_end_back e : image_end opp (image_end opp e) = e.
Proof. destruct e; cbn; rewrite ?opp_invol; reflexivity. Qed.

Lemma swapped_back dbg n g h : swapped dbg n g h -> swapped dbg n h g.
Proof.
  intros [Hd HG HH [I1 I2 I3 I4 I5 I6] Hh HC HR HL]. split; try assumption; try congruence.
  - split; try congruence.
    + apply (rimage_back n _ _ opp (rswap_sym n)), I1.
    + rewrite I2. symmetry. apply opp_invol.
    + apply map_opp_back; [apply image_end_back|exact I4].
    + apply (map_opp_back (fun p => p)); [reflexivity|exact I5].
  - unfold rimage_history in *. clear -Hh. induction Hh as [|x y l l' Hxy _ IH]; constructor; [|exact IH]. apply (rimage_back n _ _ opp (rswap_sym n)), Hxy.
  - intros c. rewrite <- (opp_invol c) at 2. symmetry. apply HC.
Qed.

Lemma rplain_on n m x y : rplain n m -> m = MPlay x y -> ron n (x, y).
Proof. intros H ->. exact H. Qed.

Lemma image_same m : rplain (0, 0) m \/ True -> (forall c, m <> MResign c) -> image_move (fun p => p) opp m = m.
Proof. intros _ H. destruct m; cbn; [reflexivity|destruct (H c eq_refl)|reflexivity]. Qed.

Lemma swapped_step dbg n g h m g' : swapped dbg n g h -> may_play dbg n g m g' -> exists h', may_play dbg n h m h' /\ swapped dbg n g' h'.
Proof.
  intros [Hd (b & w & HG) (b' & w' & HH) I Hh HC HR HL] [Hm E].
  assert (Hon : forall x y, m = MPlay x y -> ron n (x, y)) by (intros x y; apply rplain_on, Hm).
  destruct (rimage_accepted n _ _ opp (rswap_sym n) dbg dbg b w b' w' g h (rgreach_inv _ _ _ _ _ Hd HG) (rgreach_inv _ _ _ _ _ Hd HH) I m g' Hon HL (or_intror (fun q _ => eq_refl)) Hh E)
    as (h' & E' & I' & Hh' & HC' & HL').
  rewrite image_same in E' by (auto; intros c ->; exact Hm).
  exists h'. split; [split; assumption|]. split; try assumption.
  - destruct (rgreach_try _ _ _ _ _ _ _ _ Hd HG Hon E) as (b1 & w1 & K & _). eauto.
  - destruct (rgreach_try _ _ _ _ _ _ _ _ Hd HH Hon E') as (b1 & w1 & K & _). eauto.
  - apply HC', HC.
  - rewrite (try_rule _ _ _ _ _ E), (try_rule _ _ _ _ _ E'). exact HR.
Qed.

Lemma swapped_over dbg n g h : swapped dbg n g h -> is_over h = is_over g.
Proof. intros S. pose proof (rim_passes _ _ _ _ _ (sw_game _ _ _ _ S)) as I3. pose proof (rim_outcome _ _ _ _ _ (sw_game _ _ _ _ S)) as I4. unfold is_over. rewrite I3, I4. destruct (gm_outcome g); reflexivity. Qed.

Lemma swapped_forces dbg n c (P Q : game -> Prop) r g h : (forall x y, swapped dbg n x y -> is_over x = true -> gm_rule x = r -> P x -> Q y) ->
  gm_rule g = r -> swapped dbg n g h -> forces dbg n c P g -> forces dbg n (opp c) Q h.
Proof.
  intros HPQ R S F. revert R h S. induction F as [g Ov HP|g m g' Ov T Hm F IH|g Ov T F IH]; intros R h S.
  - apply fo_over; [rewrite (swapped_over _ _ _ _ S); exact Ov|]. eapply HPQ; eassumption.
  - destruct (swapped_step _ _ _ _ _ _ S Hm) as (h' & Hm' & S').
    eapply fo_own; [rewrite (swapped_over _ _ _ _ S); exact Ov|rewrite (rim_turn _ _ _ _ _ (sw_game _ _ _ _ S)), T; reflexivity|exact Hm'|apply IH; [|exact S']]. destruct Hm as [_ X]. rewrite (try_rule _ _ _ _ _ X). exact R.
  - apply fo_other; [rewrite (swapped_over _ _ _ _ S); exact Ov|rewrite (rim_turn _ _ _ _ _ (sw_game _ _ _ _ S)), T; reflexivity|].
    intros m h' Hm. destruct (swapped_step _ _ _ _ _ _ (swapped_back _ _ _ _ S) Hm) as (g' & Hm' & S'). apply (IH m g' Hm'); [|apply swapped_back, S']. destruct Hm' as [_ X]. rewrite (try_rule _ _ _ _ _ X). exact R.
Qed.

Lemma swapped_won dbg n c g h : N.testbit (flag_score (gm_rule g)) 1 = false -> swapped dbg n g h -> won dbg c g -> won dbg (opp c) h.
Proof.
  intros K [Hd (b & w & HG) (b' & w' & HH) I _ HC HR _] Hw order Ho.
  destruct (swap_outcome n order order dbg dbg b w b' w' g h Hd HG HH Ho Ho I HC ltac:(rewrite HR; reflexivity) K) as (o & E & E').
  destruct (Hw order Ho) as (e & Ee & We). rewrite E in Ee. injection Ee as ->. exists (image_end opp e). split; [exact E'|].
  destruct e; cbn in *; congruence.
Qed.

(** ** A move that is not a reply to two passes does not depend on the passes *)
Lemma try_unpaused dbg g x y g' : try_play dbg g (MPlay x y) = Ok (g', Accepted) -> try_play dbg (resume g) (MPlay x y) = Ok (g', Accepted).
Proof.
  unfold try_play. cbn [resume gm_passes]. destruct (gm_passes g =? 2); [discriminate|]. cbn [Nat.eqb]. change (gm_goban (resume g)) with (gm_goban g).
  unfold check_point. rewrite check_resume. change (gm_rule (resume g)) with (gm_rule g). change (play dbg (resume g) (MPlay x y)) with (play dbg g (MPlay x y)).
  destruct (get_color (gm_goban g) (x, y)) as [col| |]; cbn [bind]; try discriminate. destruct (negb (mcolor_eqb col None)); [discriminate|].
  destruct (check_point_by dbg g (x, y) _) as [[e|]| |]; cbn [bind]; try discriminate. auto.
Qed.

(** ** The first player does not lose *)

Lemma new_fields s r n g : game_new s r = Ok g -> size_of s = n ->
  gm_turn g = Black /\ gm_passes g = 0 /\ gm_prisoners g = (0%N, 0%N) /\ gm_outcome g = None /\ gm_ko_point g = None /\ gm_history g = [] /\ gm_rule g = r.
Proof.
  intros E Hs. unfold game_new in E. apply bind_ok in E as (gb & _ & E). injection E as <-. cbn. repeat split; reflexivity.
Qed.

Theorem steal dbg n s r g : Nat.divide (snd n) (fst n) -> 1 <= fst n -> 1 <= snd n -> size_of s = n -> game_new s r = Ok g -> N.testbit (flag_score r) 1 = false ->
  forces dbg n Black (not_lost dbg Black) g.
Proof.
  intros Hd Hn Hn2 Hs E K. destruct (new_fields _ _ _ _ E Hs) as (T & Hp & Hpr & Ho & Hk & Hh & Hr).
  destruct (rstart_table dbg n s r g Hd Hn Hn2 Hs E) as [ST HG]. clear Hs.
  destruct (game_value dbg n 0 0 g Hd HG) as (V & _). destruct (V White) as [F|F]; [exfalso|exact F].
  assert (Ov : is_over g = false) by (unfold is_over; rewrite Ho, Hp; reflexivity).
  inversion F as [g0 Ov'|g0 m g' _ T'|g0 _ T' F']; subst; try congruence. clear T' F.
  (* Black passes *)
  set (g1 := mkGame (gm_goban g) 1 (gm_prisoners g) (gm_outcome g) White (gm_rule g) (gm_handicap g) (gm_history g) None).
  assert (M1 : may_play dbg n g MPass g1) by (split; [exact I|]; unfold try_play, play; rewrite Hp, T; reflexivity).
  pose proof (F' MPass g1 M1) as F1.
  inversion F1 as [g0 Ov'|g0 m g2 Ov' T' M2 F2|g0 _ T' _]; subst; [|clear F1|].
  { unfold is_over, g1 in Ov'. cbn in Ov'. rewrite Ho in Ov'. discriminate. }
  2:{ discriminate. }
  assert (HG1 : rgreach dbg n 0 0 g1) by (eapply rg_pass; [exact HG|]; unfold play; rewrite Hp, T; reflexivity).
  assert (Empty : forall p, ron n p -> position g p = None).
  { exact (rsa_pos _ _ _ ST). }
  assert (S0 : swapped dbg n g (resume g1)).
  { split; [exact Hd|eauto|exists 0, 0; apply rg_resume, HG1| | | |reflexivity|reflexivity].
    - split; cbn; try rewrite T; try rewrite Ho; try rewrite Hk; try reflexivity; [|symmetry; exact Hp]. intros p On. cbn. change (position (resume g1) p) with (position g p). rewrite (Empty p On). reflexivity.
    - unfold rimage_history. cbn. rewrite Hh. constructor.
    - intros c. unfold caught. cbn. rewrite Hpr. destruct c; reflexivity. }
  destruct m as [|c|x y]; [|destruct M2 as [[] _]|].
  - (* two passes *)
    destruct (swapped_step _ _ _ _ _ _ S0 M1) as (h1 & N1 & S1). destruct (swapped_step _ _ _ _ _ _ S1 M2) as (h2 & N2 & S2).
    assert (W2 : won dbg White g2).
    { inversion F2 as [g0 _ Wn|g0 m g' Ov2|g0 Ov2]; subst; [exact Wn|exfalso..]; destruct M2 as [_ X]; unfold try_play in X; cbn in X; injection X as <-;
        unfold is_over in Ov2; cbn in Ov2; rewrite Ho in Ov2; discriminate. }
    pose proof (swapped_won dbg n White g2 h2) as X. 
    assert (R2 : gm_rule g2 = gm_rule g) by (destruct M2 as [_ Y]; rewrite (try_rule _ _ _ _ _ Y); reflexivity).
    specialize (X ltac:(rewrite R2; exact K) S2 W2). cbn [opp] in X.
    destruct (X (fun l => l) (fun l => Permutation_refl l)) as (e & Ee & We). destruct (W2 (fun l => l) (fun l => Permutation_refl l)) as (e' & Ee' & We').
    assert (Eq : outcome (fun l => l) dbg h2 = outcome (fun l => l) dbg g2).
    { destruct M2 as [_ Y2], N1 as [_ Y1], N2 as [_ Y3]. unfold try_play in Y1, Y2, Y3. cbn in Y1, Y2. injection Y1 as <-. injection Y2 as <-. cbn in Y3. injection Y3 as <-.
      unfold outcome, is_over, calculate_score, calculate_score_by. cbn. rewrite Ho. reflexivity. }
    rewrite Eq, Ee' in Ee. injection Ee as ->. congruence.
  - (* a stone *)
    pose proof M2 as [M2a M2b].
    destruct (swapped_step _ _ _ _ (MPlay x y) g2 (swapped_back _ _ _ _ S0) (conj M2a (try_unpaused _ _ _ _ _ M2b))) as (h & Mh & Sh).
    pose proof (F' _ _ Mh) as Fh.
    assert (Kh : gm_rule h = gm_rule g) by (destruct Mh as [_ X]; apply (try_rule _ _ _ _ _ X)).
    assert (F3 : forces dbg n Black (won dbg Black) g2).
    { apply (swapped_forces dbg n White (won dbg White) (won dbg Black) (gm_rule g) h g2); [|exact Kh|apply swapped_back, Sh|exact Fh].
      intros u v Suv _ Ru Wu. apply (swapped_won dbg n White u v); [rewrite Ru; exact K|exact Suv|exact Wu]. }
    apply (not_both dbg n White (won dbg White) (won dbg Black) g2); [|exact F2|exact F3].
    intros u Wu Bu. destruct (Wu (fun l => l) (fun l => Permutation_refl l)) as (e & Ee & We). destruct (Bu (fun l => l) (fun l => Permutation_refl l)) as (e' & Ee' & We'). congruence.
Qed.
