(** Scores and outcomes for every komi, whole, fractional or not finite. *)
From stdpp Require Import relations.
From Verif Require Import MonadFacts Spec Reach Observe ScoreSpec RoundSpec Game BitsetFacts CoordFacts Struct Push Inv Remove Capture Bridge GameFacts RulesFacts BoardFacts TerritoryFacts Float32Facts RoundFacts ScoreFacts.
From Coq Require Import Lia ZArith.

Local Ltac sm := unfold small in *; lia.

Lemma isC_units x z : isC x (2 * z) -> is_f32 x /\ units x = Some (points_in_units z).
Proof.
  intros H. destruct (isC_valid _ _ H) as [V HH]. split; [exact V|]. rewrite (halves_units _ _ V HH). f_equal.
  unfold points_in_units. change (2 ^ 149)%Z with (2 * 2 ^ 148)%Z. ring.
Qed.

Lemma units_max x u : is_f32 x -> units x = Some u -> (Z.abs u <= (2 ^ 24 - 1) * 2 ^ 253)%Z.
Proof.
  intros V U. destruct x as [s|s| |s m e]; try discriminate; injection U as <-; [lia|].
  unfold is_f32 in V. cbn [valid_binary] in V. pose proof (bounded_dg _ _ V) as D. apply bounded_facts in V as [V _].
  pose proof (dg_bounds m) as [_ M].
  assert (M' : (Zpos m < 2 ^ 24)%Z) by (eapply Z.lt_le_trans; [exact M|]; apply Z.pow_le_mono_r; lia).
  rewrite Z.abs_mul, (Z.abs_eq (2 ^ _)) by (pose proof (pow2_pos (e + 149)); lia).
  replace (Z.abs (cond_Zopp s (Zpos m))) with (Zpos m) by (destruct s; reflexivity).
  apply Z.mul_le_mono_nonneg; [lia..|apply Z.lt_le_incl, pow2_pos; lia|]. apply Z.pow_le_mono_r; lia.
Qed.

Lemma side_double flags t s p : black2 flags t s p = (2 * side_points flags t s p)%Z.
Proof. unfold black2, side_points. destruct (N.testbit flags 2), (N.testbit flags 0); ring. Qed.

Section Score.
  Context (order : list point -> list point) (dbg : bool) (n : nat) (g : game).
  Context (W : wf n (gm_goban g)) (Ho : forall l, order l ≡ₚ l).
  Context (HpB : (fst (gm_prisoners g) < 1000000)%N) (HpW : (snd (gm_prisoners g) < 1000000)%N).
  Local Notation P := (pos_of (gm_goban g)).

  Lemma score_base flags : exists b w tb tw,
    calculate_score_by order dbg g flags = Ok (b, if N.testbit flags 1 then f32_add w (komi g) else w) /\
    card (owned n P Black) tb /\ card (owned n P White) tw /\
    let B := side_points flags (N.of_nat tb) (N.of_nat (count n P Black)) (fst (gm_prisoners g)) in
    let Wh := side_points flags (N.of_nat tw) (N.of_nat (count n P White)) (snd (gm_prisoners g)) in
    isC b (2 * B) /\ isC w (2 * Wh) /\ (0 <= B < 2 ^ 20)%Z /\ (0 <= Wh < 2 ^ 20)%Z.
  Proof using W Ho HpB HpW.
    destruct (calculate_territories_ok order dbg n (gm_goban g) W Ho) as (tb & tw & E & CB & CW).
    unfold calculate_score_by. rewrite E. cbn [bind]. rewrite (number_of_stones_ok n _ W).
    pose proof (wf_n n _ W) as Hn.
    pose proof (card_bound n (owned n (pos_of (gm_goban g)) Black) tb ltac:(lia) (fun p H => proj1 H) CB) as BB.
    pose proof (card_bound n (owned n (pos_of (gm_goban g)) White) tw ltac:(lia) (fun p H => proj1 H) CW) as BW.
    pose proof (count_bound n (pos_of (gm_goban g)) Black ltac:(lia)) as SB.
    pose proof (count_bound n (pos_of (gm_goban g)) White ltac:(lia)) as SW.
    assert (ITB : isC (f32_of_N (N.of_nat tb)) (2 * Z.of_N (N.of_nat tb))) by (apply of_N_isC; sm).
    assert (ITW : isC (f32_of_N (N.of_nat tw)) (2 * Z.of_N (N.of_nat tw))) by (apply of_N_isC; sm).
    assert (ISB : isC (f32_of_N (N.of_nat (count n (pos_of (gm_goban g)) Black))) (2 * Z.of_N (N.of_nat (count n (pos_of (gm_goban g)) Black)))) by (apply of_N_isC; sm).
    assert (ISW : isC (f32_of_N (N.of_nat (count n (pos_of (gm_goban g)) White))) (2 * Z.of_N (N.of_nat (count n (pos_of (gm_goban g)) White)))) by (apply of_N_isC; sm).
    assert (IPB : isC (f32_of_N (fst (gm_prisoners g))) (2 * Z.of_N (fst (gm_prisoners g)))) by (apply of_N_isC; sm).
    assert (IPW : isC (f32_of_N (snd (gm_prisoners g))) (2 * Z.of_N (snd (gm_prisoners g)))) by (apply of_N_isC; sm).
    rewrite (flag_bit flags 0 STONES), (flag_bit flags 1 KOMI), (flag_bit flags 2 PRISONNERS) by reflexivity.
    setoid_rewrite <- side_double. unfold side_points, black2.
    destruct (N.testbit flags 2), (N.testbit flags 0);
      eexists _, _, tb, tw; (split; [reflexivity|]); (split; [exact CB|]); (split; [exact CW|]); cbn zeta;
      rewrite ?Z.add_0_r; (split; [|split; [|split; lia]]);
      repeat first [assumption | apply add_isC | sm].
  Qed.
End Score.

(** ** Scores *)

Theorem score_rounded order dbg n b0 w0 g flags :
  greach dbg n b0 w0 g -> (forall l, order l ≡ₚ l) -> is_f32 (komi g) ->
  (fst (gm_prisoners g) < 1000000)%N -> (snd (gm_prisoners g) < 1000000)%N ->
  exists b w tb tw,
    calculate_score_by order dbg g flags = Ok (b, w) /\
    card (owned n (pos_of (gm_goban g)) Black) tb /\ card (owned n (pos_of (gm_goban g)) White) tw /\
    let B := side_points flags (N.of_nat tb) (N.of_nat (count n (pos_of (gm_goban g)) Black)) (fst (gm_prisoners g)) in
    let Wh := side_points flags (N.of_nat tw) (N.of_nat (count n (pos_of (gm_goban g)) White)) (snd (gm_prisoners g)) in
    is_f32 b /\ units b = Some (points_in_units B) /\
    if N.testbit flags 1
    then match units (komi g) with
         | Some k => rounds_to w (points_in_units Wh + k)
         | None => w = komi g
         end
    else is_f32 w /\ units w = Some (points_in_units Wh).
Proof.
  intros HG Ho V PB PW. pose proof (gi_wf _ _ _ _ (greach_inv _ _ _ _ _ HG)) as W.
  destruct (score_base order dbg n g W Ho PB PW flags) as (b & w & tb & tw & E & CB & CW & IB & IW & LB & LW).
  eexists b, _, tb, tw. split; [exact E|]. split; [exact CB|]. split; [exact CW|]. cbn zeta.
  destruct (isC_units _ _ IB) as [VB UB], (isC_units _ _ IW) as [VW UW]. split; [exact VB|]. split; [exact UB|].
  destruct (N.testbit flags 1); [|split; assumption].
  destruct (units (komi g)) as [k|] eqn:UK.
  - apply add_rounds; try assumption. pose proof (units_max _ _ V UK). unfold points_in_units, overflow_from in *. lia.
  - destruct (komi g) as [s|s| |s m e]; try discriminate; destruct w as [s'|s'| |s' m' e']; try discriminate; reflexivity.
Qed.

(** ** Outcomes *)

Lemma eps_units : is_f32 f32_EPSILON /\ units f32_EPSILON = Some (2 ^ 126)%Z.
Proof. split; vm_compute; reflexivity. Qed.

Lemma decide_finite b w B z : is_f32 b -> units b = Some (points_in_units B) -> (0 <= B < 2 ^ 20)%Z -> rounds_to w z ->
  exists u, units w = Some u /\ is_f32 w /\
    rounds_to (f32_sub b w) (points_in_units B - u) /\ rounds_to (f32_sub w b) (u - points_in_units B) /\
    (f32_lt (f32_abs (f32_sub b w)) f32_EPSILON = true -> (Z.abs (points_in_units B - z) < 2 ^ 145)%Z) /\
    (f32_lt (f32_abs (f32_sub b w)) f32_EPSILON = false ->
      if f32_lt w b then (points_in_units B > z)%Z else (z > points_in_units B)%Z).
Proof.
  intros Vb Ub HB R. pose proof R as (Vw & u & Uw & _). exists u. split; [exact Uw|]. split; [exact Vw|].
  pose proof (units_max _ _ Vw Uw) as Mu.
  assert (R1 : rounds_to (f32_sub b w) (points_in_units B - u)).
  { apply sub_rounds; try assumption. unfold points_in_units, overflow_from in *. lia. }
  assert (R2 : rounds_to (f32_sub w b) (u - points_in_units B)).
  { apply sub_rounds; try assumption. unfold points_in_units, overflow_from in *. lia. }
  split; [exact R1|]. split; [exact R2|].
  pose proof R1 as (Vd & d & Ud & _). destruct (abs_units _ _ Vd Ud) as [Va Ua]. destruct eps_units as [Ve Ue].
  rewrite (lt_units _ _ _ _ Va Ve Ua Ue), (lt_units _ _ _ _ Vw Vb Uw Ub).
  assert (Bp : points_in_units B = (16 * B * 2 ^ 145)%Z) by (unfold points_in_units; change (2 ^ 149)%Z with (16 * 2 ^ 145)%Z; ring).
  split; intros L.
  - apply Z.ltb_lt in L. destruct (Z.lt_ge_cases (Z.abs (points_in_units B - z)) (2 ^ 145)) as [?|G]; [assumption|exfalso].
    destruct (Z.le_gt_cases z (points_in_units B)) as [S|S].
    + destruct (representable (16 * B - 1) 145 ltac:(lia) ltac:(lia)) as (y & Vy & Uy).
      pose proof (rounds_le _ _ _ _ _ R Uw Vy Uy ltac:(lia)) as U1.
      destruct (representable 1 126 ltac:(lia) ltac:(lia)) as (y' & Vy' & Uy').
      pose proof (rounds_ge _ _ _ _ _ R1 Ud Vy' Uy' ltac:(lia)). lia.
    + destruct (representable (16 * B + 1) 145 ltac:(lia) ltac:(lia)) as (y & Vy & Uy).
      pose proof (rounds_ge _ _ _ _ _ R Uw Vy Uy ltac:(lia)) as U1.
      destruct (representable (-1) 126 ltac:(lia) ltac:(lia)) as (y' & Vy' & Uy').
      pose proof (rounds_le _ _ _ _ _ R1 Ud Vy' Uy' ltac:(lia)). lia.
  - apply Z.ltb_ge in L. destruct (Z.ltb_spec u (points_in_units B)) as [S|S].
    + destruct (Z.le_gt_cases (points_in_units B) z) as [C|C]; [|lia].
      pose proof (rounds_ge _ _ _ _ _ R Uw Vb Ub C). lia.
    + destruct (Z.le_gt_cases z (points_in_units B)) as [C|C]; [|lia].
      pose proof (rounds_le _ _ _ _ _ R Uw Vb Ub C). assert (u - points_in_units B = 0)%Z by lia.
      pose proof (rounds_self _ _ (S754_zero false) R1 eq_refl ltac:(cbn [units]; f_equal; lia)) as Z0. rewrite Ud in Z0. injection Z0 as Z0. lia.
Qed.

Theorem outcome_any_komi order dbg n b0 w0 g k :
  greach dbg n b0 w0 g -> (forall l, order l ≡ₚ l) ->
  is_f32 (komi g) -> (if N.testbit (flag_score (gm_rule g)) 1 then units (komi g) else Some 0%Z) = Some k ->
  (fst (gm_prisoners g) < 1000000)%N -> (snd (gm_prisoners g) < 1000000)%N ->
  gm_outcome g = None -> gm_passes g = 2%nat ->
  exists tb tw w u,
    card (owned n (pos_of (gm_goban g)) Black) tb /\ card (owned n (pos_of (gm_goban g)) White) tw /\
    let B := points_in_units (side_points (flag_score (gm_rule g)) (N.of_nat tb) (N.of_nat (count n (pos_of (gm_goban g)) Black)) (fst (gm_prisoners g))) in
    let Wh := (points_in_units (side_points (flag_score (gm_rule g)) (N.of_nat tw) (N.of_nat (count n (pos_of (gm_goban g)) White)) (snd (gm_prisoners g))) + k)%Z in
    rounds_to w Wh /\ units w = Some u /\
    ((outcome order dbg g = Ok (Some Draw) /\ (Z.abs (B - Wh) < 2 ^ 145)%Z) \/
     (exists m, outcome order dbg g = Ok (Some (WinnerByScore Black m)) /\ (B > Wh)%Z /\ rounds_to m (B - u)) \/
     (exists m, outcome order dbg g = Ok (Some (WinnerByScore White m)) /\ (Wh > B)%Z /\ rounds_to m (u - B))).
Proof.
  intros HG Ho V K PB PW Ou Pa. pose proof (gi_wf _ _ _ _ (greach_inv _ _ _ _ _ HG)) as W.
  destruct (score_base order dbg n g W Ho PB PW (flag_score (gm_rule g))) as (b & w & tb & tw & E & CB & CW & IB & IW & LB & LW).
  set (B := side_points _ _ _ _) in *. set (Wh := side_points _ _ _ _) in LW, IW.
  destruct (isC_units _ _ IB) as [VB UB], (isC_units _ _ IW) as [VW UW].
  set (w' := if N.testbit _ _ then _ else _) in E.
  assert (R : rounds_to w' (points_in_units Wh + k)).
  { unfold w'. destruct (N.testbit _ 1).
    - apply add_rounds; try assumption. pose proof (units_max _ _ V K). unfold points_in_units, overflow_from in *. lia.
    - injection K as <-. rewrite Z.add_0_r. apply rounds_exact; assumption. }
  destruct (decide_finite b w' B _ VB UB LB R) as (u & U & Vw & R1 & R2 & HD & HN).
  exists tb, tw, w', u. split; [exact CB|]. split; [exact CW|]. cbn zeta. split; [exact R|]. split; [exact U|].
  unfold outcome, is_over. rewrite Ou, Pa. cbn [Nat.leb negb]. unfold calculate_score. rewrite E. cbn [bind].
  fold Wh. destruct (f32_lt (f32_abs _) _).
  - left. split; [reflexivity|]. apply HD. reflexivity.
  - right. specialize (HN eq_refl). destruct (f32_lt w' b); [left|right]; eexists; (split; [reflexivity|]); (split; [exact HN|]); assumption.
Qed.

Theorem outcome_not_finite order dbg n b0 w0 g :
  greach dbg n b0 w0 g -> (forall l, order l ≡ₚ l) ->
  units (komi g) = None -> N.testbit (flag_score (gm_rule g)) 1 = true ->
  (fst (gm_prisoners g) < 1000000)%N -> (snd (gm_prisoners g) < 1000000)%N ->
  gm_outcome g = None -> gm_passes g = 2%nat ->
  outcome order dbg g = Ok (Some
    match komi g with
    | S754_infinity true => WinnerByScore Black (S754_infinity false)
    | S754_infinity false => WinnerByScore White (S754_infinity false)
    | _ => WinnerByScore White S754_nan
    end).
Proof.
  intros HG Ho K F PB PW Ou Pa. pose proof (gi_wf _ _ _ _ (greach_inv _ _ _ _ _ HG)) as W.
  destruct (score_base order dbg n g W Ho PB PW (flag_score (gm_rule g))) as (b & w & tb & tw & E & CB & CW & IB & IW & LB & LW).
  rewrite F in E. destruct (isC_units _ _ IB) as [VB UB], (isC_units _ _ IW) as [VW UW].
  unfold outcome, is_over. rewrite Ou, Pa. cbn [Nat.leb negb]. unfold calculate_score. rewrite E. cbn [bind].
  destruct (komi g) as [s|[]| |s m e]; try discriminate; destruct w as [s'|s'| |s' m' e']; try discriminate;
    destruct b as [s''|s''| |s'' m'' e'']; try discriminate; reflexivity.
Qed.
