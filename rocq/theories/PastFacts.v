(** Without superko the past does not matter. *)
From stdpp Require Import relations.
From Verif Require Import PastSpec ScoreSpec RoundSpec AreaSpec.
From Verif Require Import MonadFacts Spec Game Builder Struct Push Inv Remove Capture Bridge GameFacts RulesFacts LegalFacts LegalsFacts CheckFacts ClaimFacts LongFacts SymFacts SymGame SymScore ScoreFacts ReprFacts RectCount RectCoord RectBridge RectRules RectKo RectBoard RectCheck RectEye RectVerdict.
From Verif Require Import RectScore  RectSpec RectReach RectVerdictSpec RectTableSpec RectInv RectGame RectMoves RectLegal RectTable RectReachFacts RectSymFacts RectSymGame RectSymClaims RectCountScore StrategyFacts StealFacts KomiClaims ValueFacts.
From Verif Require Import RectList BansFacts.
From Coq Require Import Lia.

Local Notation length := Datatypes.length.
Local Open Scope nat_scope.

Local Notation idc := (fun p : coord => p).
Local Notation idk := (fun c : color => c).

Lemma superko_bit F : flag_contains F SUPERKO = N.testbit F 1.
Proof. apply (flag_bit _ 1). reflexivity. Qed.

Lemma now_image n g h : same_now n g h -> rimage_game n idc idk g h /\ image_caught idk g h.
Proof.
  intros [A1 A2 A3 A4 A5 A6 A7]. split.
  - constructor; [by apply rid_image|done|done|rewrite id_end; done| |by rewrite A7]. rewrite <- A5. by destruct (gm_ko_point g).
  - intros c. unfold caught. by rewrite A6.
Qed.

Lemma image_now n g h : rimage_game n idc idk g h -> image_caught idk g h -> gm_rule g = gm_rule h -> same_now n g h.
Proof.
  intros [A1 A2 A3 A4 A5 A6] C R. constructor; [by apply rid_image|done|done| | | |done].
  - by rewrite A4, id_end.
  - rewrite A5. by destruct (gm_ko_point g).
  - pose proof (C White) as CW. pose proof (C Black) as CB. cbn in CW, CB. destruct (gm_prisoners g), (gm_prisoners h); cbn in *; congruence.
Qed.

Lemma now_sym n g h : same_now n g h -> same_now n h g.
Proof. intros []. constructor; intros; symmetry; auto. Qed.

(** ** Lines *)
Theorem past_run n dbg dbg' ms : Nat.divide (snd n) (fst n) -> forall b w b' w' g h,
  rgreach dbg n b w g -> rgreach dbg' n b' w' h -> same_now n g h -> forbids_superko (gm_rule g) = false ->
  (forall x y, MPlay x y ∈ ms -> ron n (x, y)) ->
  (N.of_nat (b + w + length ms) <= 65535)%N -> (N.of_nat (b' + w' + length ms) <= 65535)%N ->
  exists g' h' tr, run dbg g (List.map OTry ms) = Ok (g', tr) /\ run dbg' h (List.map OTry ms) = Ok (h', tr) /\ same_now n g' h'.
Proof.
  intros Hd. induction ms as [|m ms IH]; intros b w b' w' g h HG HG' A SK Hon L L'; cbn [List.map run].
  { exists g, h, []. auto. }
  destruct (now_image n g h A) as (I & IC).
  pose proof (rgreach_inv _ _ _ _ _ Hd HG) as G. pose proof (rgreach_inv _ _ _ _ _ Hd HG') as G'.
  pose proof (rgi_chains _ _ _ _ G) as C. pose proof (rgi_chains _ _ _ _ G') as C'. cbn [length] in L, L'.
  assert (Hm : forall x y, m = MPlay x y -> ron n (x, y)) by (intros x y ->; apply Hon; left).
  assert (SK' : flag_contains (flag_illegal (gm_rule g)) SUPERKO = false) by (rewrite superko_bit; exact SK).
  destruct (rimage_try n _ _ _ (rid_sym n) dbg dbg' b w b' w' g h G G' I m Hm ltac:(lia) ltac:(lia) (or_intror (fun q _ => eq_refl)) (or_introl SK')) as (g1 & h1 & v & E1 & E1' & I1 & _ & K1).
  rewrite id_move in E1'. specialize (K1 IC). destruct (rgreach_try _ _ _ _ _ _ _ _ Hd HG Hm E1) as (b1 & w1 & HG1 & L1).
  destruct (rgreach_try _ _ _ _ _ _ _ _ Hd HG' Hm E1') as (b1' & w1' & HG1' & L1').
  pose proof (try_rule _ _ _ _ _ E1) as R1. pose proof (try_rule _ _ _ _ _ E1') as R1'.
  destruct (IH b1 w1 b1' w1' g1 h1 HG1 HG1') as (g2 & h2 & tr & E2 & E2' & A2).
  { apply image_now; [exact I1|exact K1|]. rewrite R1, R1'. apply A. } { rewrite R1. exact SK. }
  { intros x y Hx. apply Hon. right. exact Hx. } { lia. } { lia. }
  cbn [do_op]. rewrite E1, E1'. cbn [bind]. rewrite E2, E2'. cbn [bind]. eexists g2, h2, _. split; [reflexivity|]. split; [reflexivity|exact A2].
Qed.

(** ** Scores: no rule needs the past *)
Theorem past_score n order order' dbg dbg' b w b' w' g h flags : Nat.divide (snd n) (fst n) ->
  rgreach dbg n b w g -> rgreach dbg' n b' w' h -> (forall l, order l ≡ₚ l) -> (forall l, order' l ≡ₚ l) -> same_now n g h ->
  exists s o, calculate_score_by order dbg g flags = Ok s /\ calculate_score_by order' dbg' h flags = Ok s /\
    outcome order dbg g = Ok o /\ outcome order' dbg' h = Ok o.
Proof.
  intros Hd HG HH Ho Ho' A.
  pose proof (rgi_wf _ _ _ _ (rgreach_inv _ _ _ _ _ Hd HG)) as W. pose proof (rgi_wf _ _ _ _ (rgreach_inv _ _ _ _ _ Hd HH)) as V.
  assert (E : forall flags, calculate_score_by order dbg g flags = calculate_score_by order' dbg' h flags).
  { intros fl. unfold calculate_score_by.
    rewrite (rterritory_any order order dbg dbg' n _ W Hd Ho Ho), (rterritory_any order' order dbg' dbg' n _ V Hd Ho' Ho).
    unfold calculate_territories. rewrite (rsame_territories n _ _ W V (proj1 (rsame_pos_col n _ _ W V) (now_pos _ _ _ A))).
    rewrite (rnumber_of_stones_ok n _ W), (rnumber_of_stones_ok n _ V).
    rewrite !(rcount_same n (pos_of (gm_goban g)) (pos_of (gm_goban h))) by exact (now_pos _ _ _ A).
    rewrite (now_prisoners _ _ _ A). unfold komi. rewrite (now_rule _ _ _ A). reflexivity. }
  assert (X : forall fl, exists s, calculate_score_by order dbg g fl = Ok s).
  { intros fl. destruct Hd as [k Hk]. destruct (rterritories_core order dbg n (gm_goban g) k W Hk Ho) as (l & G & bt & wt & _ & _ & Et & _).
    unfold calculate_score_by, calculate_territories. rewrite Et. cbn [bind]. destruct (number_of_stones (gm_goban g)) as [x y].
    destruct (flag_contains fl PRISONNERS), (flag_contains fl STONES); eauto. }
  destruct (X flags) as (s & Es). exists s.
  assert (EO : outcome order dbg g = outcome order' dbg' h).
  { unfold outcome, is_over, calculate_score. rewrite E, (now_rule _ _ _ A), (now_outcome _ _ _ A), (now_passes _ _ _ A). reflexivity. }
  assert (XO : exists o, outcome order dbg g = Ok o).
  { unfold outcome. destruct (negb (is_over g)); [eauto|]. destruct (gm_outcome g); [eauto|]. unfold calculate_score.
    destruct (X (flag_score (gm_rule g))) as ([x y] & ->). cbn [bind]. destruct (f32_lt _ _); [eauto|]. destruct (f32_lt _ _); eauto. }
  destruct XO as (o & Eo). exists o. split; [exact Es|]. split; [rewrite <- E; exact Es|]. split; [exact Eo|]. rewrite <- EO. exact Eo.
Qed.

(** ** Questions about points *)
Theorem past_point n dbg dbg' b w b' w' g h p F e : Nat.divide (snd n) (fst n) -> rgreach dbg n b w g -> rgreach dbg' n b' w' h -> same_now n g h ->
  ron n p -> N.testbit F 1 = false -> check_point_by dbg g p F = Ok e <-> check_point_by dbg' h p F = Ok e.
Proof.
  intros Hd HG HH A Hp HF. rewrite <- superko_bit in HF.
  pose proof (rgreach_inv _ _ _ _ _ Hd HG) as G. pose proof (rgreach_inv _ _ _ _ _ Hd HH) as G'. split; intros E.
  - exact (rimage_check n _ _ _ (rid_sym n) dbg dbg' b w b' w' g h G G' (proj1 (now_image n g h A)) p F e Hp (or_intror (fun q _ => eq_refl)) (or_introl HF) E).
  - exact (rimage_check n _ _ _ (rid_sym n) dbg' dbg b' w' b w h g G' G (proj1 (now_image n h g (now_sym _ _ _ A))) p F e Hp (or_intror (fun q _ => eq_refl)) (or_introl HF) E).
Qed.

(** ** One accepted move, whatever the number of groups *)
Section Accepted.
  Context (n : size_t) (dbg dbg' : bool) (b w b' w' : nat) (g h : game).
  Hypothesis Hd : Nat.divide (snd n) (fst n).
  Hypothesis HG : rgreach dbg n b w g.
  Hypothesis HH : rgreach dbg' n b' w' h.
  Hypothesis A : same_now n g h.
  Hypothesis SK : forbids_superko (gm_rule g) = false.

  Lemma past_accepted m g' : (forall x y, m = MPlay x y -> ron n (x, y)) ->
    length (chains (gm_goban h)) = length (chains (gm_goban g)) -> try_play dbg g m = Ok (g', Accepted) ->
    exists h', try_play dbg' h m = Ok (h', Accepted) /\ same_now n g' h' /\ length (chains (gm_goban h')) = length (chains (gm_goban g')).
  Proof using All.
    intros Hm L E. destruct (now_image n g h A) as (I & IC).
    pose proof (rgreach_inv _ _ _ _ _ Hd HG) as G. pose proof (rgreach_inv _ _ _ _ _ Hd HH) as G'.
    pose proof (rgi_wf _ _ _ _ G) as W. pose proof (rgi_wf _ _ _ _ G') as W'.
    assert (IP : rimage n idc idk (pos_of (gm_goban g)) (pos_of (gm_goban h))) by exact (rim_pos _ _ _ _ _ I).
    destruct (decide (gm_passes g = 2%nat)) as [P2|P2].
    { rewrite (paused_refuses _ _ _ P2) in E. discriminate. }
    assert (P2' : gm_passes h <> 2%nat) by (rewrite (rim_passes _ _ _ _ _ I); exact P2).
    assert (Done : forall h', try_play dbg' h m = Ok (h', Accepted) -> rimage_game n idc idk g' h' -> image_caught idk g' h' -> same_now n g' h').
    { intros h' E' I' C'. apply image_now; [exact I'|exact C'|]. rewrite (try_rule _ _ _ _ _ E), (try_rule _ _ _ _ _ E'). apply A. }
    destruct (decide (exists x y, m = MPlay x y)) as [(x & y & ->)|Hno].
    - specialize (Hm x y eq_refl). pose proof E as E0.
      rewrite (rtry_play_point dbg n g x y W Hm P2) in E. pose proof (rtry_play_point dbg' n h x y W' Hm P2') as T.
      unfold check_point in *. apply bind_ok in E as (e & Ec & E). destruct e as [e|]; [discriminate|]. apply bind_ok in E as (g1 & Ep & E). injection E as ->.
      pose proof (rcontains_check Ec W (rgi_hist _ _ _ _ G) Hm) as (He & _). pose proof (proj1 (rnone_iff n idc idk _ _ _ IP Hm) He) as He'.
      assert (FR : (N.of_nat (length (chains (gm_goban h))) = 65535)%N -> rone_friend n (pos_of (gm_goban h)) (x, y) (gm_turn h)).
      { intros L2. destruct (rplay_spec dbg n b w g x y G Hm He) as [[F _]|(g1 & E1 & G1 & _ & [[O _]|[_ O]] & _)]; [congruence| |].
        - rewrite (rim_turn _ _ _ _ _ I). apply (rone_friend_iff n idc idc idk (rid_sym n) _ _ (x, y) (gm_turn g) IP Hm). exact O.
        - exfalso. pose proof (wf0_len _ (rwf_0 n _ (rgi_wf _ _ _ _ G1))). lia. }
      assert (SK' : N.testbit (flag_illegal (gm_rule g)) 1 = false) by exact SK.
      pose proof (proj1 (past_point n dbg dbg' b w b' w' g h (x, y) _ None Hd HG HH A Hm SK') Ec) as Ec'.
      rewrite (rim_rule _ _ _ _ _ I), Ec' in T. cbn [bind] in T.
      destruct (rimage_play n _ _ _ (rid_sym n) dbg dbg' b w b' w' g h G G' I x y g' Hm He Ep) as [[F O]|(h' & E' & I' & _ & H2 & H3)].
      + exfalso. cbn [image_move] in F. destruct (rplay_spec dbg' n b' w' h _ _ G' Hm He') as [[_ [_ O2]]|(g1 & E1 & _)]; [|cbn [fst snd] in F; congruence].
        apply O2, FR, O.
      + cbn [image_move fst snd] in E'. rewrite E' in T. cbn [bind] in T. exists h'. split; [exact T|]. split; [apply Done; auto|lia].
    - assert (Hm' : m = MPass \/ exists c, m = MResign c) by (destruct m; [left|right|exfalso]; eauto).
      assert (Ep : play dbg g m = Ok g') by (destruct (try_play_inv _ _ _ _ _ E) as [(e & F & _)|(_ & _ & Ep)]; [discriminate|exact Ep]).
      destruct (rimage_pass_resign n _ _ _ (rid_sym n) dbg dbg' g h I m g' Hm' Ep) as (h' & E' & I' & _ & H2 & C1 & C2).
      rewrite id_move in E'.
      assert (T : try_play dbg' h m = Ok (h', Accepted)).
      { unfold try_play. destruct (Nat.eqb_spec (gm_passes h) 2); [contradiction|]. destruct Hm' as [->|[c ->]]; rewrite E'; reflexivity. }
      exists h'. split; [exact T|]. split; [apply Done; auto|]. rewrite C1, C2. exact L.
  Qed.
End Accepted.

(** ** Values *)
Record alike_now (dbg dbg' : bool) (n : size_t) (g h : game) : Prop := mkAlikeNow {
  an_left : exists b w, rgreach dbg n b w g;
  an_right : exists b w, rgreach dbg' n b w h;
  an_now : same_now n g h;
  an_rule : forbids_superko (gm_rule g) = false;
  an_length : length (chains (gm_goban h)) = length (chains (gm_goban g))
}.

Section Value.
  Context (n : size_t).
  Hypothesis Hd : Nat.divide (snd n) (fst n).

  Lemma an_back dbg dbg' g h : alike_now dbg dbg' n g h -> alike_now dbg' dbg n h g.
  Proof. intros [X Y Z R L]. split; try assumption; [apply now_sym, Z|rewrite <- (now_rule _ _ _ Z); exact R|congruence]. Qed.

  Lemma an_step dbg dbg' g h m g' : alike_now dbg dbg' n g h -> may_play dbg n g m g' -> exists h', may_play dbg' n h m h' /\ alike_now dbg dbg' n g' h'.
  Proof using Hd.
    intros [(b & w & HG) (b' & w' & HH) A R L] [Hm E]. assert (Hon : forall x y, m = MPlay x y -> ron n (x, y)) by (intros x y; apply rplain_on, Hm).
    destruct (past_accepted n dbg dbg' b w b' w' g h Hd HG HH A R m g' Hon L E) as (h' & E' & A' & L').
    exists h'. split; [split; assumption|]. split; [| |exact A'| |exact L'].
    - destruct (rgreach_try _ _ _ _ _ _ _ _ Hd HG Hon E) as (b1 & w1 & K & _). eauto.
    - destruct (rgreach_try _ _ _ _ _ _ _ _ Hd HH Hon E') as (b1 & w1 & K & _). eauto.
    - rewrite (try_rule _ _ _ _ _ E). exact R.
  Qed.

  Lemma an_forces dbg dbg' c (P Q : game -> Prop) g h : (forall x y, alike_now dbg dbg' n x y -> P x -> Q y) ->
    alike_now dbg dbg' n g h -> forces dbg n c P g -> forces dbg' n c Q h.
  Proof using Hd.
    intros HPQ S F. revert h S. induction F as [g Ov HP|g m g' Ov T Hm F IH|g Ov T F IH]; intros h S;
      (assert (Oh : is_over h = is_over g) by (unfold is_over; rewrite (now_passes _ _ _ (an_now _ _ _ _ _ S)), (now_outcome _ _ _ (an_now _ _ _ _ _ S)); reflexivity));
      pose proof (now_turn _ _ _ (an_now _ _ _ _ _ S)) as Th.
    - apply fo_over; [congruence|]. eapply HPQ; eassumption.
    - destruct (an_step _ _ _ _ _ _ S Hm) as (h' & Hm' & S'). eapply fo_own; [congruence|congruence|exact Hm'|apply IH; exact S'].
    - apply fo_other; [congruence|congruence|]. intros m h' Hm. destruct (an_step _ _ _ _ _ _ (an_back _ _ _ _ S) Hm) as (g' & Hm' & S').
      apply (IH _ g' Hm'). apply an_back, S'.
  Qed.

  Lemma an_won dbg dbg' c g h : alike_now dbg dbg' n g h -> won dbg c g -> won dbg' c h.
  Proof using Hd.
    intros [(b & w & HG) (b' & w' & HH) A _ _] Hw order Ho. destruct (Hw order Ho) as (e & Ee & We).
    destruct (past_score n order order dbg dbg' b w b' w' g h 0 Hd HG HH Ho Ho A) as (_ & o & _ & _ & E & E'). exists e. split; [congruence|exact We].
  Qed.
  Lemma an_not_lost dbg dbg' c g h : alike_now dbg dbg' n g h -> not_lost dbg c g -> not_lost dbg' c h.
  Proof using Hd.
    intros [(b & w & HG) (b' & w' & HH) A _ _] Hw order Ho. destruct (Hw order Ho) as (e & Ee & We).
    destruct (past_score n order order dbg dbg' b w b' w' g h 0 Hd HG HH Ho Ho A) as (_ & o & _ & _ & E & E'). exists e. split; [congruence|exact We].
  Qed.
End Value.

Theorem past_value dbg dbg' n b w b' w' g h : Nat.divide (snd n) (fst n) -> rgreach dbg n b w g -> rgreach dbg' n b' w' h -> same_now n g h ->
  forbids_superko (gm_rule g) = false -> length (chains (gm_goban h)) = length (chains (gm_goban g)) -> same_value dbg dbg' n (fun c => c) g h.
Proof.
  intros Hd HG HH A R L c. assert (S : alike_now dbg dbg' n g h) by (split; eauto). pose proof (an_back _ _ _ _ _ S) as S'.
  split; split; intros F.
  - exact (an_forces n Hd _ _ c _ _ g h (fun x y => an_won n Hd dbg dbg' c x y) S F).
  - exact (an_forces n Hd _ _ c _ _ h g (fun x y => an_won n Hd dbg' dbg c x y) S' F).
  - exact (an_forces n Hd _ _ c _ _ g h (fun x y => an_not_lost n Hd dbg dbg' c x y) S F).
  - exact (an_forces n Hd _ _ c _ _ h g (fun x y => an_not_lost n Hd dbg' dbg c x y) S' F).
Qed.

(** ** Lists of legal moves *)
Lemma past_legals_one n dbg dbg' b w b' w' g h F l : Nat.divide (snd n) (fst n) -> rgreach dbg n b w g -> rgreach dbg' n b' w' h -> same_now n g h ->
  N.testbit F 1 = false -> legals_by dbg g F = Ok l -> legals_by dbg' h F = Ok l.
Proof.
  intros Hd HG HH A HF E.
  pose proof (rgi_wf _ _ _ _ (rgreach_inv _ _ _ _ _ Hd HG)) as W. pose proof (rgi_wf _ _ _ _ (rgreach_inv _ _ _ _ _ Hd HH)) as V.
  destruct (legals_inv _ _ _ _ E) as (q & f & Eq & -> & H). unfold legals_by.
  assert (EE : pseudo_legals h = Ok q).
  { unfold pseudo_legals in *. rewrite <- Eq. symmetry. exact (rsame_empties n _ _ W V (proj1 (rsame_pos_col n _ _ W V) (now_pos _ _ _ A))). }
  rewrite EE. cbn [bind]. apply filterM_ok. intros p Hp. destruct (H p Hp) as (e & Ee & He).
  assert (On : ron n p).
  { destruct (Hd) as [k Hk]. destruct (rempty_times n _ k p W Hk) as (l & El & Hl & _). unfold pseudo_legals in Eq. rewrite El in Eq. injection Eq as <-. apply Hl, Hp. }
  rewrite (proj1 (past_point n dbg dbg' b w b' w' g h p F e Hd HG HH A On HF) Ee). cbn [bind]. f_equal. destruct e; [|symmetry; apply He; reflexivity].
  destruct (f p); [|reflexivity]. discriminate (proj1 He eq_refl).
Qed.

Theorem past_legals n dbg dbg' b w b' w' g h F l : Nat.divide (snd n) (fst n) -> rgreach dbg n b w g -> rgreach dbg' n b' w' h -> same_now n g h ->
  N.testbit F 1 = false -> legals_by dbg g F = Ok l <-> legals_by dbg' h F = Ok l.
Proof.
  intros Hd HG HH A HF. split; [exact (past_legals_one n dbg dbg' b w b' w' g h F l Hd HG HH A HF)|exact (past_legals_one n dbg' dbg b' w' b w h g F l Hd HH HG (now_sym _ _ _ A) HF)].
Qed.
