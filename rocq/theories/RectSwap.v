(** Exchanging the colours exchanges the scores, also on boards that are not square. *)
From stdpp Require Import relations.
From Verif Require Import RectSymSpec RectReach RectCountSpec ScoreSpec SymSpec RoundSpec.
From Verif Require Import Capture MonadFacts Spec Reach Territory Struct Push Bridge GameFacts RulesFacts BoardFacts TerritoryFacts Float32Facts RoundFacts ScoreFacts FloatSwap SymFacts Observe.
From Verif Require Import RectCoord RectInv RectBridge RectGame RectBoard RectMoves RectList RectReachFacts RectScore RectCount RectSymFacts RectSymGame RectSymClaims RectCountScore RectGo TallPoint SymClaims.
From Coq Require Import Lia ZArith.

Local Notation length := Datatypes.length.
Local Open Scope nat_scope.

Lemma rswap_sym n : rboard_sym n (fun p => p) (fun p => p) opp.
Proof. constructor; auto. apply opp_invol. Qed.

Section Swap.
  Context (n : size_t) (P Q : pos) (I : rimage n (fun p => p) opp P Q).

  Lemma swap_back : rimage n (fun p => p) opp Q P.
  Proof using I. exact (rimage_back n _ _ opp (rswap_sym n) P Q I). Qed.

  Lemma swap_spread p q : rspread n P p q -> rspread n Q p q.
  Proof using I.
    intros [->|(r & Hr & A & E & C)]; [left; reflexivity|right]. exists r. split; [exact Hr|]. split; [exact A|]. split; [rewrite (I r Hr), E; reflexivity|].
    exact (rimage_connected n _ _ opp (rswap_sym n) P Q r q I Hr C).
  Qed.

  Lemma swap_borders c D : rborders n P c D -> rborders n Q (opp c) D.
  Proof using I. intros (q & r & Hq & Hr & A & E). exists q, r. repeat split; try assumption; try apply Hr. rewrite (I r Hr), E. reflexivity. Qed.
End Swap.

Lemma swap_spread_iff n P Q p q : rimage n (fun p => p) opp P Q -> rspread n P p q <-> rspread n Q p q.
Proof. intros I. split; apply swap_spread; [exact I|apply swap_back, I]. Qed.

Lemma swap_only n P Q c D : rimage n (fun p => p) opp P Q -> ronly n P c D <-> ronly n Q (opp c) D.
Proof.
  intros I. pose proof (swap_back n P Q I) as J. unfold ronly. rewrite opp_invol. split.
  - intros [H1 H2]. split; [apply (swap_borders n P Q I), H1|]. intros H. apply H2. apply (swap_borders n Q P J), H.
  - intros [H1 H2]. split; [rewrite <- (opp_invol c); apply (swap_borders n Q P J), H1|]. intros H. apply H2. rewrite <- (opp_invol c). apply (swap_borders n P Q I), H.
Qed.

Lemma swap_chosen n P Q G l G' : rimage n (fun p => p) opp P Q -> rchosen n P G l G' -> rchosen n Q G l G'.
Proof.
  intros I. induction 1 as [G|G p l G' Se T IH|G p R l G' Se N E T IH]; [constructor|eapply rt_seen; eassumption|].
  eapply rt_new; [exact Se|exact N| |exact IH]. intros q. rewrite E. apply swap_spread_iff, I.
Qed.

Lemma swap_counted n P Q c G l : rimage n (fun p => p) opp P Q -> rcounted n P c G l -> rcounted n Q (opp c) G l.
Proof. intros I (f & Hf & Hl). exists f. split; [|exact Hl]. intros R HR. rewrite (Hf R HR). apply swap_only, I. Qed.

Lemma swap_cells n a b : rwf n a -> rwf n b -> rimage n (fun p => p) opp (pos_of a) (pos_of b) -> forall i, cell a i = None <-> cell b i = None.
Proof.
  intros Wa Wb I i. rewrite <- (rcol_None n a i Wa), <- (rcol_None n b i Wb).
  destruct (decide (i / fst n < fst n /\ i mod fst n < snd n)%nat) as [Hi|Hi].
  - pose proof (I (rpt n i) (rpt_on n i Hi)) as H. cbn in H. rewrite (rpos_of_col n a), (rpos_of_col n b) in H by (try apply rpt_on; assumption).
    rewrite !ridx_pt in H by exact Hi. rewrite H. destruct (col a i); cbn; split; congruence.
  - rewrite (rcol_off n a i Wa Hi), (rcol_off n b i Wb Hi). reflexivity.
Qed.

Section Games.
  Context (n : size_t) (order order' : list point -> list point) (dbg dbg' : bool) (b w b' w' : nat) (g h : game).
  Hypothesis Hd : Nat.divide (snd n) (fst n).
  Hypothesis HG : rgreach dbg n b w g.
  Hypothesis HH : rgreach dbg' n b' w' h.
  Hypothesis Ho : forall l, order l ≡ₚ l.
  Hypothesis Ho' : forall l, order' l ≡ₚ l.
  Hypothesis I : rimage n (fun p => p) opp (position g) (position h).
  Hypothesis C : image_caught opp g h.

  Lemma swap_score flags : N.testbit flags 1 = false ->
    exists sb sw, calculate_score_by order dbg g flags = Ok (sb, sw) /\ calculate_score_by order' dbg' h flags = Ok (sw, sb) /\ upto 176 sb /\ upto 176 sw.
  Proof using All.
    intros K. pose proof (rgreach_inv _ _ _ _ _ Hd HG) as Gg. pose proof (rgreach_inv _ _ _ _ _ Hd HH) as Gh.
    pose proof (rgi_wf _ _ _ _ Gg) as W. pose proof (rgi_wf _ _ _ _ Gh) as V. pose proof Hd as [k Hk].
    destruct (rterritories_core order dbg n (gm_goban g) k W Hk Ho) as (l & G & bt & wt & El & T & E & CB & CW & _).
    destruct (rterritories_core order' dbg' n (gm_goban h) k V Hk Ho') as (l' & G' & bt' & wt' & El' & T' & E' & CB' & CW' & _).
    rewrite <- (rempties_cells n _ _ W V (swap_cells n _ _ W V I)), El in El'. injection El' as <-.
    change (pos_of (gm_goban g)) with (position g) in *. change (pos_of (gm_goban h)) with (position h) in *.
    pose proof (rcounted_bound n _ k l G Black _ W Hk El T CB) as BB. pose proof (rcounted_bound n _ k l G White _ W Hk El T CW) as BW.
    pose proof (swap_chosen n _ _ _ _ _ I T) as T2. pose proof (swap_counted n _ _ _ _ _ I CB) as CB2. pose proof (swap_counted n _ _ _ _ _ I CW) as CW2. cbn [opp] in CB2, CW2.
    pose proof (Permutation_length (rcount_determined _ _ _ _ _ _ _ _ T2 T' CB2 CW')) as LB. pose proof (Permutation_length (rcount_determined _ _ _ _ _ _ _ _ T2 T' CW2 CB')) as LW.
    pose proof (rcount_image n _ _ opp (rswap_sym n) _ _ Black I) as NB. pose proof (rcount_image n _ _ opp (rswap_sym n) _ _ White I) as NW. cbn [opp] in NB, NW.
    pose proof (C Black) as PB. pose proof (C White) as PW. cbn [caught opp] in PB, PW.
    pose proof (rcount_bound n (position g) Black (rwf_n n _ W)) as SB. pose proof (rcount_bound n (position g) White (rwf_n n _ W)) as SW.
    pose proof (rgi_pris _ _ _ _ Gg) as PP. pose proof (dslots_le (gm_goban g)) as Hds. pose proof (wf0_len _ (rwf_0 n _ W)) as Hlen.
    assert (QB : (fst (gm_prisoners g) <= 361 * 65535)%N /\ (snd (gm_prisoners g) <= 361 * 65535)%N) by (unfold rem_total in PP; lia).
    destruct QB as [QB QW]. rewrite !fmap_length in *. unfold point in *.
    assert (X : forall x, (Z.of_N x <= 361 * 65535)%Z -> upto 174 (f32_of_N x)).
    { intros x Hx. apply of_N_upto; [lia|]. change (2 ^ 174)%Z with (33554432 * 2 ^ 149)%Z. apply Z.mul_le_mono_nonneg_r; [|lia]. apply Z.pow_nonneg. lia. }
    assert (XB := X (N.of_nat (length bt)) ltac:(lia)). assert (XW := X (N.of_nat (length wt)) ltac:(lia)).
    assert (YB := X (N.of_nat (rcount n (position g) Black)) ltac:(lia)). assert (YW := X (N.of_nat (rcount n (position g) White)) ltac:(lia)).
    assert (ZB := X (fst (gm_prisoners g)) ltac:(lia)). assert (ZW := X (snd (gm_prisoners g)) ltac:(lia)). clear X.
    unfold calculate_score_by, calculate_territories. rewrite E, E'. cbn [bind]. rewrite (rnumber_of_stones_ok n _ W), (rnumber_of_stones_ok n _ V), (flag_bit flags 1 KOMI), K by reflexivity.
    change (pos_of (gm_goban g)) with (position g). change (pos_of (gm_goban h)) with (position h).
    unfold point in *. rewrite <- LB, <- LW, NB, NW, PB, PW.
    destruct (flag_contains flags PRISONNERS), (flag_contains flags STONES); eexists _, _; (split; [reflexivity|]); (split; [reflexivity|]); split;
      repeat first [apply (upto_add _ _ 175); [lia| |] | apply (upto_more _ 174 175); [lia|assumption] | apply (upto_add _ _ 174); [lia|assumption|assumption] | apply (upto_more _ 174 176); [lia|assumption] | apply (upto_more _ 175 176); [lia|] ].
  Qed.
End Games.

Theorem swap_scores n order order' dbg dbg' b w b' w' g h flags : Nat.divide (snd n) (fst n) ->
  rgreach dbg n b w g -> rgreach dbg' n b' w' h -> (forall l, order l ≡ₚ l) -> (forall l, order' l ≡ₚ l) ->
  rimage n (fun p => p) opp (position g) (position h) -> image_caught opp g h -> N.testbit flags 1 = false ->
  exists sb sw, calculate_score_by order dbg g flags = Ok (sb, sw) /\ calculate_score_by order' dbg' h flags = Ok (sw, sb).
Proof.
  intros Hd HG HH Ho Ho' I C K. destruct (swap_score n order order' dbg dbg' b w b' w' g h Hd HG HH Ho Ho' I C flags K) as (sb & sw & E & E' & _). eauto.
Qed.

Theorem swap_outcome n order order' dbg dbg' b w b' w' g h : Nat.divide (snd n) (fst n) ->
  rgreach dbg n b w g -> rgreach dbg' n b' w' h -> (forall l, order l ≡ₚ l) -> (forall l, order' l ≡ₚ l) ->
  rimage_game n (fun p => p) opp g h -> image_caught opp g h -> flag_score (gm_rule h) = flag_score (gm_rule g) -> N.testbit (flag_score (gm_rule g)) 1 = false ->
  exists o, outcome order dbg g = Ok o /\ outcome order' dbg' h = Ok (option_map (image_end opp) o).
Proof.
  intros Hd HG HH Ho Ho' IG C HF K.
  unfold outcome, is_over. rewrite (rim_passes _ _ _ _ _ IG), (rim_outcome _ _ _ _ _ IG).
  replace (match option_map (image_end opp) (gm_outcome g) with Some _ => true | None => 2 <=? gm_passes g end)
     with (match gm_outcome g with Some _ => true | None => 2 <=? gm_passes g end) by (destruct (gm_outcome g); reflexivity).
  destruct (negb _); [eexists; split; reflexivity|]. destruct (gm_outcome g) as [o|]; cbn [option_map]; [eexists; split; reflexivity|].
  unfold calculate_score. rewrite HF.
  destruct (swap_score n order order' dbg dbg' b w b' w' g h Hd HG HH Ho Ho' (rim_pos _ _ _ _ _ IG) C _ K) as (sb & sw & E & E' & UB & UW).
  rewrite E, E'. cbn [bind].
  rewrite (abs_sub_swap sw sb). destruct (f32_lt (f32_abs (f32_sub sb sw)) f32_EPSILON) eqn:D; [eexists; split; reflexivity|].
  pose proof (upto_compare sb sw 176 ltac:(lia) UB UW D) as Cm. rewrite Cm.
  destruct (f32_lt sw sb); cbn [negb]; (eexists; split; [reflexivity|]); reflexivity.
Qed.

(** ** A game and the same game begun by White *)

Definition taker_first : list move := [MPlay 0 1; MPlay 0 0; MPlay 1 0; MPass; MPass].

Definition as_seen (f : color -> color) (g : game) : bool :=
  forallb (fun p => bool_decide (position g p = if decide (p = (0, 1) \/ p = (1, 0)) then Some (f Black) else None)) (rpoints (6, 3)) &&
  bool_decide (gm_turn g = f White) && (gm_passes g =? 2) && bool_decide (gm_ko_point g = None) && bool_decide (is_none (gm_outcome g) = true) &&
  bool_decide (gm_prisoners g = match f Black with Black => (1%N, 0%N) | White => (0%N, 1%N) end) && bool_decide (flag_score (gm_rule g) = 5%N) && bool_decide (flag_illegal (gm_rule g) = 5%N).

Lemma case_rswap dbg dbg' : exists g h b w b' w', Nat.divide 3 6 /\
  rgreach dbg (6, 3) b w g /\ rgreach dbg' (6, 3) b' w' h /\ rimage_game (6, 3) (fun p => p) opp g h /\ image_caught opp g h /\
  flag_score (gm_rule h) = flag_score (gm_rule g) /\ N.testbit (flag_score (gm_rule g)) 1 = false /\
  gm_prisoners g = (1%N, 0%N) /\ is_over g = true.
Proof.
  destruct (rsampleb dbg 6 3 NO_KOMI taker_first (as_seen (fun c => c)) ltac:(lia) ltac:(lia)) as (g & b & w & HG & F); [destruct dbg; vm_compute; reflexivity|].
  destruct (rsampleb dbg' 6 3 NO_KOMI (MPass :: taker_first) (as_seen opp) ltac:(lia) ltac:(lia)) as (h & b' & w' & HH & F'); [destruct dbg'; vm_compute; reflexivity|].
  unfold as_seen in F, F'. repeat match goal with H : (_ && _) = true |- _ => apply andb_true_iff in H as [? ?] end.
  repeat match goal with H : bool_decide _ = true |- _ => apply bool_decide_eq_true_1 in H | H : (_ =? _) = true |- _ => apply Nat.eqb_eq in H end.
  exists g, h, b, w, b', w'. split; [exists 2; reflexivity|]. split; [exact HG|]. split; [exact HH|].
  assert (Og : gm_outcome g = None) by (destruct (gm_outcome g); [discriminate|reflexivity]). assert (Oh : gm_outcome h = None) by (destruct (gm_outcome h); [discriminate|reflexivity]).
  split; [|split; [|split; [congruence|split; [|split; [assumption|]]]]].
  - split; try congruence; [|rewrite Og, Oh; reflexivity|match goal with H : gm_ko_point g = None, K : gm_ko_point h = None |- _ => rewrite H, K; reflexivity end].
    intros p Hp. apply elem_of_rpoints, elem_of_list_In in Hp.
    repeat match goal with H : forallb _ _ = true |- _ => rewrite forallb_forall in H; specialize (H p Hp); apply bool_decide_eq_true_1 in H; rewrite H end.
    destruct (decide _); reflexivity.
  - intros c. unfold caught. match goal with H : gm_prisoners g = _, K : gm_prisoners h = _ |- _ => rewrite H, K end. destruct c; reflexivity.
  - match goal with H : flag_score (gm_rule g) = _ |- _ => rewrite H; reflexivity end.
  - unfold is_over. rewrite Og. match goal with H : gm_passes g = 2 |- _ => rewrite H; reflexivity end.
Qed.
