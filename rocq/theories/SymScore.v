(** Scores and outcomes of games that correspond under a symmetry. *)
From stdpp Require Import relations.
From Verif Require Import SymSpec ScoreSpec RoundSpec.
From Verif Require Import MonadFacts Struct Push Inv Remove Capture Bridge GameFacts RulesFacts BoardFacts TerritoryFacts Float32Facts RoundFacts ScoreFacts RoundScore FloatSwap PropFacts ClaimFacts ReprFacts SymFacts.
From Coq Require Import Lia ZArith.

Local Notation length := Datatypes.length.
Local Open Scope nat_scope.

Section Half.
  Context (n : nat) (σ τ : coord -> coord) (γ : color -> color) (P Q : pos).
  Hypothesis S : board_sym n σ τ γ.
  Hypothesis I : image n σ γ P Q.

  Lemma image_touches p c : on n p -> touches n P p c -> touches n Q (σ p) (γ c).
  Proof using S I.
    intros Hp (q & r & C & Hr & A & E). assert (Hq : on n q) by (apply (connected_on_r n P p q Hp C)).
    exists (σ q), (σ r). split; [apply (image_connected n σ τ γ S P Q p q I Hp C)|].
    split; [apply (sy_on _ _ _ _ S), Hr|]. split; [apply (sy_adj _ _ _ _ S); assumption|]. rewrite (I r Hr), E. reflexivity.
  Qed.
End Half.

Section Score.
  Context (n : nat) (σ τ : coord -> coord) (γ : color -> color) (P Q : pos).
  Hypothesis S : board_sym n σ τ γ.
  Hypothesis I : image n σ γ P Q.

  Lemma touches_image p c : on n p -> touches n P p c <-> touches n Q (σ p) (γ c).
  Proof using S I.
    intros Hp. split; [apply (image_touches n σ τ γ P Q S I p c Hp)|]. intros H.
    pose proof (image_touches n τ σ γ Q P (board_sym_sym _ _ _ _ S) (image_back n σ τ γ S P Q I) _ _ (sy_on _ _ _ _ S p Hp) H) as K.
    rewrite (sy_left _ _ _ _ S p Hp), (sy_color _ _ _ _ S) in K. exact K.
  Qed.

  Lemma owned_image p c : on n p -> owned n P c p <-> owned n Q (γ c) (σ p).
  Proof using S I.
    intros Hp. unfold owned. rewrite (I p Hp), (omap_none γ), <- (gamma_opp n σ τ γ S), <- !touches_image by exact Hp.
    pose proof (sy_on _ _ _ _ S p Hp). tauto.
  Qed.

  Lemma card_image (D E : coord -> Prop) k : (forall p, D p -> on n p) -> (forall p, E p -> on n p) ->
    (forall p, on n p -> D p <-> E (σ p)) -> card D k -> card E k.
  Proof using S.
    intros HD HE H (l & Nd & Hl & <-). exists (List.map σ l). split; [|split].
    - assert (K : forall p, p ∈ l -> on n p) by (intros p Hp; apply HD, Hl, Hp). clear Hl. induction Nd as [|p l Hp Nd IH]; [constructor|].
      cbn. constructor; [|apply IH; intros q Hq; apply K; right; exact Hq].
      rewrite elem_of_list_In, in_map_iff. intros (q & E' & Hq). apply elem_of_list_In in Hq. apply Hp.
      rewrite (sigma_inj n σ τ γ S p q); [exact Hq|apply K; left|apply K; right; exact Hq|congruence].
    - intros q. rewrite elem_of_list_In, in_map_iff. split.
      + intros (p & <- & Hp). apply elem_of_list_In, Hl in Hp. apply H; [apply HD, Hp|exact Hp].
      + intros Hq. destruct (onto n σ τ γ S q (HE q Hq)) as (p & Hp & ->). exists p. split; [reflexivity|].
        apply elem_of_list_In, Hl, H; assumption.
    - apply map_length.
  Qed.

  Lemma count_card (R : pos) c : card (fun p => on n p /\ R p = Some c) (count n R c).
  Proof using.
    exists (filter (fun p => R p = Some c) (points n)). split; [apply NoDup_filter, NoDup_points|]. split; [|reflexivity].
    intros p. rewrite elem_of_list_filter, elem_of_points. tauto.
  Qed.

  Lemma count_image c : count n Q (γ c) = count n P c.
  Proof using S I.
    eapply card_unique; [apply count_card|]. eapply card_image; [| | |apply count_card]; [cbn; tauto..|].
    intros p Hp. cbn. rewrite (I p Hp), (omap_some n σ τ γ S). pose proof (sy_on _ _ _ _ S p Hp). tauto.
  Qed.
End Score.

Section Games.
  Context (n : nat) (σ τ : coord -> coord) (γ : color -> color).
  Context (order order' : list point -> list point) (dbg dbg' : bool) (b w b' w' : nat) (g h : game).
  Hypothesis S : board_sym n σ τ γ.
  Hypothesis HG : greach dbg n b w g.
  Hypothesis HH : greach dbg' n b' w' h.
  Hypothesis Ho : forall l, order l ≡ₚ l.
  Hypothesis Ho' : forall l, order' l ≡ₚ l.
  Hypothesis I : image n σ γ (position g) (position h).
  Hypothesis C : image_caught γ g h.

  Theorem sym_score flags : N.testbit flags 1 = false \/ (γ Black = Black /\ komi h = komi g) ->
    exists s s', calculate_score_by order dbg g flags = Ok s /\ calculate_score_by order' dbg' h flags = Ok s' /\
      forall c, side (γ c) s' = side c s.
  Proof using S HG HH Ho Ho' I C.
    intros K.
    pose proof (gi_wf _ _ _ _ (greach_inv _ _ _ _ _ HG)) as Wg. pose proof (gi_wf _ _ _ _ (greach_inv _ _ _ _ _ HH)) as Wh.
    destruct (calculate_territories_ok order dbg n (gm_goban g) Wg Ho) as (tb & tw & E & CB & CW).
    destruct (calculate_territories_ok order' dbg' n (gm_goban h) Wh Ho') as (tb' & tw' & E' & CB' & CW').
    change (pos_of (gm_goban g)) with (position g) in *. change (pos_of (gm_goban h)) with (position h) in *.
    assert (X : forall c k, card (owned n (position g) c) k -> card (owned n (position h) (γ c)) k).
    { intros c k. apply (card_image n σ τ γ S); [intros p Hp; apply Hp|intros p Hp; apply Hp|]. intros p Hp. apply (owned_image n σ τ γ _ _ S I p c Hp). }
    pose proof (X Black tb CB) as XB. pose proof (X White tw CW) as XW. clear X.
    pose proof (count_image n σ τ γ _ _ S I Black) as NB. pose proof (count_image n σ τ γ _ _ S I White) as NW.
    pose proof (C Black) as PB. pose proof (C White) as PW.
    unfold calculate_score_by. rewrite E, E'. cbn [bind].
    rewrite (claim_count dbg n (b + w) (gm_goban g)) by exact (br_game _ _ _ _ _ HG).
    rewrite (claim_count dbg' n (b' + w') (gm_goban h)) by exact (br_game _ _ _ _ _ HH).
    change (pos_of (gm_goban g)) with (position g). change (pos_of (gm_goban h)) with (position h).
    rewrite (flag_bit flags 1 KOMI) by reflexivity.
    pose proof (gamma_opp n σ τ γ S Black) as GO. cbn [opp] in GO.
    destruct (γ Black) eqn:GB; cbn [opp] in GO; rewrite GO in *; cbn [caught] in PB, PW.
    - assert (tw' = tb) as -> by (eapply card_unique; eassumption). assert (tb' = tw) as -> by (eapply card_unique; eassumption).
      destruct K as [K|[K _]]; [|discriminate]. rewrite K, NB, NW, PB, PW.
      destruct (flag_contains flags PRISONNERS), (flag_contains flags STONES); eexists _, _;
        (split; [reflexivity|]); (split; [reflexivity|]); intros []; rewrite ?GB, ?GO; reflexivity.
    - assert (tb' = tb) as -> by (eapply card_unique; eassumption). assert (tw' = tw) as -> by (eapply card_unique; eassumption).
      rewrite NB, NW, PB, PW. assert (EK : N.testbit flags 1 = true -> komi h = komi g) by (destruct K as [K|[_ K]]; congruence).
      destruct (N.testbit flags 1); [rewrite (EK eq_refl)|];
      destruct (flag_contains flags PRISONNERS), (flag_contains flags STONES); eexists _, _;
        (split; [reflexivity|]); (split; [reflexivity|]); intros []; rewrite ?GB, ?GO; reflexivity.
  Qed.
End Games.

Theorem sym_scores n σ τ γ order order' dbg dbg' b w b' w' g h flags :
  board_sym n σ τ γ -> greach dbg n b w g -> greach dbg' n b' w' h -> (forall l, order l ≡ₚ l) -> (forall l, order' l ≡ₚ l) ->
  image n σ γ (position g) (position h) -> image_caught γ g h ->
  N.testbit flags 1 = false \/ (γ Black = Black /\ komi h = komi g) ->
  exists s s', calculate_score_by order dbg g flags = Ok s /\ calculate_score_by order' dbg' h flags = Ok s' /\
    forall c, side (γ c) s' = side c s.
Proof. intros S HG HH Ho Ho' I C K. eapply sym_score; eassumption. Qed.

(** scores without komi are finite *)
Lemma score_finite order dbg n b w g flags s : greach dbg n b w g -> (forall l, order l ≡ₚ l) -> N.testbit flags 1 = false ->
  calculate_score_by order dbg g flags = Ok s -> upto 176 (fst s) /\ upto 176 (snd s).
Proof.
  intros HG Ho K Es. pose proof (greach_inv _ _ _ _ _ HG) as G. pose proof (gi_wf _ _ _ _ G) as Wg. pose proof (wf_n n _ Wg) as Hn.
  destruct (calculate_territories_ok order dbg n (gm_goban g) Wg Ho) as (tb & tw & E & CB & CW).
  pose proof (card_bound n (owned n (pos_of (gm_goban g)) Black) tb ltac:(lia) (fun p H => proj1 H) CB) as BB.
  pose proof (card_bound n (owned n (pos_of (gm_goban g)) White) tw ltac:(lia) (fun p H => proj1 H) CW) as BW.
  pose proof (count_bound n (pos_of (gm_goban g)) Black ltac:(lia)) as SB.
  pose proof (count_bound n (pos_of (gm_goban g)) White ltac:(lia)) as SW.
  pose proof (gi_pris _ _ _ _ G) as PP. pose proof (dslots_le (gm_goban g)) as Hd. pose proof (wf0_len _ (wf_0 n _ Wg)) as Hlen.
  assert (PB : (fst (gm_prisoners g) <= 361 * 65535)%N /\ (snd (gm_prisoners g) <= 361 * 65535)%N) by (unfold rem_total in PP; lia).
  destruct PB as [PB PW].
  assert (X : forall x, (Z.of_N x <= 361 * 65535)%Z -> upto 174 (f32_of_N x)).
  { intros x Hx. apply of_N_upto; [lia|]. change (2 ^ 174)%Z with (33554432 * 2 ^ 149)%Z. apply Z.mul_le_mono_nonneg_r; [|lia]. apply Z.pow_nonneg. lia. }
  assert (XB := X (N.of_nat tb) ltac:(lia)). assert (XW := X (N.of_nat tw) ltac:(lia)).
  assert (YB := X (N.of_nat (count n (pos_of (gm_goban g)) Black)) ltac:(lia)). assert (YW := X (N.of_nat (count n (pos_of (gm_goban g)) White)) ltac:(lia)).
  assert (ZB := X (fst (gm_prisoners g)) ltac:(lia)). assert (ZW := X (snd (gm_prisoners g)) ltac:(lia)). clear X.
  unfold calculate_score_by in Es. rewrite E in Es. cbn [bind] in Es. rewrite (number_of_stones_ok n _ Wg), (flag_bit flags 1 KOMI), K in Es by reflexivity.
  destruct (flag_contains flags PRISONNERS), (flag_contains flags STONES); injection Es as <-; cbn [fst snd]; split;
    repeat first [apply (upto_add _ _ 175); [lia| |] | apply (upto_more _ 174 175); [lia|assumption] | apply (upto_add _ _ 174); [lia|assumption|assumption] | apply (upto_more _ 174 176); [lia|assumption] | apply (upto_more _ 175 176); [lia|] ].
Qed.

Theorem sym_outcome n σ τ γ order order' dbg dbg' b w b' w' g h :
  board_sym n σ τ γ -> greach dbg n b w g -> greach dbg' n b' w' h -> (forall l, order l ≡ₚ l) -> (forall l, order' l ≡ₚ l) ->
  image_game n σ γ g h -> image_caught γ g h -> flag_score (gm_rule h) = flag_score (gm_rule g) ->
  N.testbit (flag_score (gm_rule g)) 1 = false \/ (γ Black = Black /\ komi h = komi g) ->
  exists o, outcome order dbg g = Ok o /\ outcome order' dbg' h = Ok (option_map (image_end γ) o).
Proof.
  intros S HG HH Ho Ho' IG C HF K.
  unfold outcome, is_over. rewrite (im_passes _ _ _ _ _ IG), (im_outcome _ _ _ _ _ IG).
  replace (match option_map (image_end γ) (gm_outcome g) with Some _ => true | None => 2 <=? gm_passes g end)
     with (match gm_outcome g with Some _ => true | None => 2 <=? gm_passes g end) by (destruct (gm_outcome g); reflexivity).
  destruct (negb _); [eexists; split; reflexivity|]. destruct (gm_outcome g) as [o|]; cbn [option_map]; [eexists; split; reflexivity|].
  unfold calculate_score. rewrite HF.
  destruct (sym_score n σ τ γ order order' dbg dbg' b w b' w' g h S HG HH Ho Ho' (im_pos _ _ _ _ _ IG) C _ K) as (s & s' & E & E' & X).
  rewrite E, E'. cbn [bind]. destruct s as [sb sw], s' as [sb' sw'].
  pose proof (gamma_opp n σ τ γ S Black) as GO. cbn [opp] in GO.
  pose proof (X Black) as XB. pose proof (X White) as XW. destruct (γ Black) eqn:GB; cbn [opp] in GO; rewrite GO in *; cbn [side fst snd] in XB, XW; subst sb' sw'.
  - destruct K as [K|[K _]]; [|discriminate]. destruct (score_finite _ _ _ _ _ _ _ _ HG Ho K E) as [UB UW]. cbn [fst snd] in UB, UW.
    rewrite (abs_sub_swap sw sb). destruct (f32_lt (f32_abs (f32_sub sb sw)) f32_EPSILON) eqn:D; [eexists; split; reflexivity|].
    pose proof (upto_compare sb sw 176 ltac:(lia) UB UW D) as Cm. rewrite Cm.
    destruct (f32_lt sw sb); cbn [negb]; (eexists; split; [reflexivity|]); cbn; rewrite ?GB, ?GO; reflexivity.
  - destruct (f32_lt (f32_abs (f32_sub sb sw)) f32_EPSILON), (f32_lt sw sb); (eexists; split; [reflexivity|]); cbn; rewrite ?GB, ?GO; reflexivity.
Qed.
