(** Komi and good play. *)
From stdpp Require Import relations.
From Verif Require Import StrategySpec RectSymSpec RectReach RectCountSpec ScoreSpec RoundSpec.
From Verif Require Import MonadFacts Spec Game Builder Struct Push Inv Remove Capture Bridge GameFacts RulesFacts LegalFacts Float32 Float32Facts RoundFacts ScoreFacts FloatSwap FloatMono Territory TerritoryFacts.
From Verif Require Import RectSpec RectCoord RectInv RectBridge RectGame RectReachFacts RectMoves RectScore RectCount RectCountScore RectSymClaims RectGo StrategyFacts StealFacts.
From Coq Require Import Lia ZArith.

Local Notation length := Datatypes.length.
Local Open Scope nat_scope.

(** ** Moves do not depend on how the game is counted *)

(** [g] with another rule *)
Definition with_rule (g : game) (r : rule) : game :=
  mkGame (gm_goban g) (gm_passes g) (gm_prisoners g) (gm_outcome g) (gm_turn g) r (gm_handicap g) (gm_history g) (gm_ko_point g).

Lemma set_komi_with g k : set_komi g k = with_rule g (mkRule k (flag_illegal (gm_rule g)) (flag_score (gm_rule g))).
Proof. reflexivity. Qed.

Lemma play_with dbg g r m : flag_illegal r = flag_illegal (gm_rule g) ->
  play dbg (with_rule g r) m = let! g' := play dbg g m in Ok (with_rule g' r).
Proof.
  intros E. destruct m as [|c|x y]; cbn [play].
  - cbn [gm_passes with_rule]. destruct (gm_passes g <? 2); reflexivity.
  - reflexivity.
  - cbn [gm_passes with_rule gm_history gm_goban gm_turn gm_rule gm_prisoners]. destruct (history_insert _ _) as [h| |]; [|reflexivity..]. cbn [bind].
    destruct (push_wth_feedback _ _ _ _) as [[[gb dead] added]| |]; [|reflexivity..]. cbn [bind].
    unfold game_remove_captured_stones. rewrite E.
    destruct (remove_captured_stones_aux _ _ _ _ _) as [[[gb' [pb pw]] ko]| |]; [|reflexivity..]. cbn [bind].
    destruct (u32_add dbg (fst (gm_prisoners g)) pb) as [b'| |]; [|reflexivity..]. cbn [bind]. destruct (u32_add dbg (snd (gm_prisoners g)) pw) as [w'| |]; reflexivity.
Qed.

Lemma corners_with dbg g r c l : check_eye_corners dbg (with_rule g r) c l = check_eye_corners dbg g c l.
Proof.
  induction l as [|q t IH]; [reflexivity|]. cbn [check_eye_corners]. rewrite IH. reflexivity.
Qed.
Lemma eye_with dbg g r s : check_eye dbg (with_rule g r) s = check_eye dbg g s.
Proof.
  destruct s as [p c]. unfold check_eye. cbn [gm_goban with_rule]. destruct (get_color (gm_goban g) p) as [[|]| |]; try reflexivity. cbn [bind].
  destruct (neighbors_coords _ _ _) as [nbs| |]; [|reflexivity..]. cbn [bind]. destruct (anyM _ nbs) as [[]| |]; try reflexivity. cbn [bind].
  change (helper_check_eye dbg (with_rule g r) p c) with (helper_check_eye dbg g p c). destruct (helper_check_eye dbg g p c) as [[[a f] e]| |]; [|reflexivity..]. cbn [bind].
  rewrite corners_with. reflexivity.
Qed.

Lemma check_with dbg g r p : flag_illegal r = flag_illegal (gm_rule g) -> check_point dbg (with_rule g r) p = check_point dbg g p.
Proof.
  intros E. unfold check_point. cbn [gm_rule with_rule]. rewrite E. unfold check_point_by, check_super_ko, play_for_verification. rewrite eye_with. cbn [gm_rule with_rule]. rewrite E. reflexivity.
Qed.

Lemma try_with dbg g r m : flag_illegal r = flag_illegal (gm_rule g) ->
  try_play dbg (with_rule g r) m = let! '(g', v) := try_play dbg g m in Ok (with_rule g' r, v).
Proof.
  intros E. unfold try_play. rewrite (play_with dbg g r m E). cbn [gm_passes with_rule gm_goban]. destruct (gm_passes g =? 2); [reflexivity|].
  destruct m as [|c|x y].
  - destruct (play dbg g MPass); reflexivity.
  - destruct (play dbg g (MResign c)); reflexivity.
  - destruct (get_color _ _) as [c| |]; [|reflexivity..]. cbn [bind]. destruct (negb _); [reflexivity|]. rewrite (check_with dbg g r _ E).
    destruct (check_point dbg g (x, y)) as [[e|]| |]; try reflexivity. cbn [bind]. destruct (play dbg g (MPlay x y)); reflexivity.
Qed.

Lemma may_with dbg n g r m g' : flag_illegal r = flag_illegal (gm_rule g) ->
  may_play dbg n (with_rule g r) m g' <-> exists h, may_play dbg n g m h /\ g' = with_rule h r.
Proof.
  intros E. unfold may_play. rewrite (try_with dbg g r m E). split.
  - intros [Hm H]. destruct (try_play dbg g m) as [[h v]| |]; try discriminate H. cbn [bind] in H. injection H as <- ->. exists h. auto.
  - intros (h & [Hm H] & ->). rewrite H. auto.
Qed.

(** a move that is not a resignation keeps the rule and what has been decided *)
Lemma may_keeps dbg n g m g' : may_play dbg n g m g' -> gm_rule g' = gm_rule g /\ gm_outcome g' = gm_outcome g.
Proof.
  intros [Hm E]. destruct (try_play_inv _ _ _ _ _ E) as [(e & F & _)|(_ & _ & Ep)]; [discriminate|]. destruct m as [|c|x y]; [|contradiction|]; cbn [play] in Ep.
  - destruct (gm_passes g <? 2); [|discriminate]. cbn [assert_ bind] in Ep. injection Ep as <-. auto.
  - apply bind_ok in Ep as (h & _ & Ep). apply bind_ok in Ep as ([[gb dead] added] & _ & Ep). apply bind_ok in Ep as ([[gb' pr] ko] & _ & Ep). injection Ep as <-. auto.
Qed.

Section Rules.
  Context (dbg : bool) (n : size_t) (c : color) (P Q : game -> Prop) (r r' r0 : rule) (o : option endgame).
  Hypothesis Hd : Nat.divide (snd n) (fst n).
  Hypothesis Er : flag_illegal r = flag_illegal r0.
  Hypothesis Er' : flag_illegal r' = flag_illegal r0.
  Hypothesis HPQ : forall h b w, rgreach dbg n b w h -> gm_rule h = r0 -> gm_outcome h = o -> is_over h = true -> P (with_rule h r) -> Q (with_rule h r').

  Lemma forces_rule b w g : rgreach dbg n b w g -> gm_rule g = r0 -> gm_outcome g = o -> forces dbg n c P (with_rule g r) -> forces dbg n c Q (with_rule g r').
  Proof using Hd Er Er' HPQ.
    intros HG HR HO F. remember (with_rule g r) as g0 eqn:Eg. revert g b w HG HR HO Eg.
    induction F as [g0 Ov HP|g0 m g1 Ov T Hm F IH|g0 Ov T F IH]; intros g b w HG HR HO ->.
    - apply fo_over; [exact Ov|]. eapply HPQ; eassumption.
    - apply may_with in Hm as (h & Hm & ->); [|congruence]. destruct (may_play_reach dbg n b w g m h Hd HG Hm) as (b' & w' & HG' & _). destruct (may_keeps _ _ _ _ _ Hm) as [K1 K2].
      eapply fo_own; [exact Ov|exact T|apply may_with; [congruence|exists h; split; [exact Hm|reflexivity]]|].
      eapply IH; [exact HG'|congruence|congruence|reflexivity].
    - apply fo_other; [exact Ov|exact T|]. intros m g' Hm. apply may_with in Hm as (h & Hm & ->); [|congruence].
      destruct (may_play_reach dbg n b w g m h Hd HG Hm) as (b' & w' & HG' & _). destruct (may_keeps _ _ _ _ _ Hm) as [K1 K2].
      eapply IH; [apply may_with; [congruence|exists h; split; [exact Hm|reflexivity]]|exact HG'|congruence|congruence|reflexivity].
  Qed.
End Rules.

(** a player can pass as long as the game is not over *)
Lemma can_pass dbg n g : is_over g = false -> exists g', may_play dbg n g MPass g'.
Proof.
  unfold is_over. intros Ov. destruct (gm_outcome g); [discriminate|]. apply Nat.leb_gt in Ov.
  unfold may_play, try_play. destruct (Nat.eqb_spec (gm_passes g) 2); [lia|]. cbn [play]. destruct (Nat.ltb_spec (gm_passes g) 2); [|lia]. eexists. split; [exact I|reflexivity].
Qed.

Lemma forces_nothing dbg n c g : ~ forces dbg n c (fun _ => False) g.
Proof.
  intros F. induction F as [g Ov []|g m g' Ov T Hm F IH|g Ov T F IH]; [exact IH|]. destruct (can_pass dbg n g Ov) as (g' & H). exact (IH _ _ H).
Qed.

(** ** What the count says *)

Section Count.
  Context (dbg : bool) (n : size_t) (order : list point -> list point) (b w : nat) (h : game).
  Hypothesis Hd : Nat.divide (snd n) (fst n).
  Hypothesis HG : rgreach dbg n b w h.
  Hypothesis Ho : forall l, order l ≡ₚ l.

  Lemma core_score (p s : bool) : exists sb sw, upto 176 sb /\ upto 176 sw /\
    forall r fl, flag_contains fl PRISONNERS = p -> flag_contains fl STONES = s ->
      calculate_score_by order dbg (with_rule h r) fl = Ok (sb, if N.testbit fl 1 then f32_add sw (r_komi r) else sw).
  Proof using All.
    pose proof (rgreach_inv _ _ _ _ _ Hd HG) as Gg. pose proof (rgi_wf _ _ _ _ Gg) as W. pose proof Hd as [k Hk].
    destruct (rterritories_core order dbg n (gm_goban h) k W Hk Ho) as (l & G & bt & wt & El & T & E & CB & CW & _).
    pose proof (rcounted_bound n _ k l G Black _ W Hk El T CB) as BB. pose proof (rcounted_bound n _ k l G White _ W Hk El T CW) as BW.
    pose proof (rcount_bound n (pos_of (gm_goban h)) Black (rwf_n n _ W)) as SB. pose proof (rcount_bound n (pos_of (gm_goban h)) White (rwf_n n _ W)) as SW.
    pose proof (rgi_pris _ _ _ _ Gg) as PP. pose proof (dslots_le (gm_goban h)) as Hds. pose proof (wf0_len _ (rwf_0 n _ W)) as Hlen.
    assert (QB : (fst (gm_prisoners h) <= 361 * 65535)%N /\ (snd (gm_prisoners h) <= 361 * 65535)%N) by (unfold rem_total in PP; lia).
    destruct QB as [QB QW]. rewrite !fmap_length in *. unfold point in *.
    assert (X : forall x, (Z.of_N x <= 361 * 65535)%Z -> upto 174 (f32_of_N x)).
    { intros x Hx. apply of_N_upto; [lia|]. change (2 ^ 174)%Z with (33554432 * 2 ^ 149)%Z. apply Z.mul_le_mono_nonneg_r; [|lia]. apply Z.pow_nonneg. lia. }
    assert (XB := X (N.of_nat (length bt)) ltac:(lia)). assert (XW := X (N.of_nat (length wt)) ltac:(lia)).
    assert (YB := X (N.of_nat (rcount n (pos_of (gm_goban h)) Black)) ltac:(lia)). assert (YW := X (N.of_nat (rcount n (pos_of (gm_goban h)) White)) ltac:(lia)).
    assert (ZB := X (fst (gm_prisoners h)) ltac:(lia)). assert (ZW := X (snd (gm_prisoners h)) ltac:(lia)). clear X.
    unfold calculate_score_by, calculate_territories. cbn [gm_goban with_rule gm_prisoners komi gm_rule]. rewrite E. cbn [bind]. rewrite (rnumber_of_stones_ok n _ W).
    destruct p, s; eexists _, _; (split; [|split; [|intros r fl -> ->; rewrite (flag_bit fl 1 KOMI) by reflexivity; reflexivity]]);
      repeat first [apply (upto_add _ _ 175); [lia| |] | apply (upto_more _ 174 175); [lia|assumption] | apply (upto_add _ _ 174); [lia|assumption|assumption] | apply (upto_more _ 174 176); [lia|assumption] | apply (upto_more _ 175 176); [lia|] ].
  Qed.
End Count.

Definition winner_of (z : Z) : option color := if (z =? 0)%Z then Some Black else if (z =? 1)%Z then None else Some White.

Lemma judged order dbg h r sb sw : is_over h = true -> gm_outcome h = None -> calculate_score_by order dbg (with_rule h r) (flag_score r) = Ok (sb, sw) ->
  exists e, outcome order dbg (with_rule h r) = Ok (Some e) /\ endgame_winner e = winner_of (judge sb sw).
Proof.
  intros Ov O E. unfold outcome, is_over in *. cbn [gm_outcome with_rule gm_passes]. rewrite O in *. rewrite Ov. cbn [negb]. unfold calculate_score. cbn [gm_rule with_rule].
  rewrite E. cbn [bind]. unfold judge. destruct (f32_lt (f32_abs _) _); [eexists; split; reflexivity|]. destruct (f32_lt sw sb); eexists; split; reflexivity.
Qed.

Lemma judge_range sb sw : (0 <= judge sb sw <= 2)%Z.
Proof. unfold judge. destruct (f32_lt _ _); [lia|]. destruct (f32_lt _ _); lia. Qed.

(** what a higher verdict means for each player *)
Lemma white_wins_range z : (0 <= z <= 2)%Z -> winner_of z = Some White <-> (2 <= z)%Z.
Proof. intros H. unfold winner_of. destruct (Z.eqb_spec z 0), (Z.eqb_spec z 1); split; intros; try discriminate; try lia; reflexivity. Qed.
Lemma white_keeps_range z : (0 <= z <= 2)%Z -> winner_of z <> Some Black <-> (1 <= z)%Z.
Proof. intros H. unfold winner_of. destruct (Z.eqb_spec z 0), (Z.eqb_spec z 1); split; intros; try congruence; lia. Qed.
Lemma black_wins_range z : (0 <= z <= 2)%Z -> winner_of z = Some Black <-> (z <= 0)%Z.
Proof. intros H. unfold winner_of. destruct (Z.eqb_spec z 0), (Z.eqb_spec z 1); split; intros; try discriminate; try lia; reflexivity. Qed.
Lemma black_keeps_range z : (0 <= z <= 2)%Z -> winner_of z <> Some White <-> (z <= 1)%Z.
Proof. intros H. unfold winner_of. destruct (Z.eqb_spec z 0), (Z.eqb_spec z 1); split; intros; try congruence; lia. Qed.

(** the count at the end of a game, whatever the rule, but for White's compensation *)
Definition judged_at (order : list point -> list point) (dbg : bool) (h : game) (fl : N) (sb sw : f32) : Prop :=
  upto 176 sb /\ upto 176 sw /\
  forall r, flag_contains (flag_score r) PRISONNERS = flag_contains fl PRISONNERS -> flag_contains (flag_score r) STONES = flag_contains fl STONES ->
  exists e, outcome order dbg (with_rule h r) = Ok (Some e) /\
    endgame_winner e = winner_of (judge sb (if N.testbit (flag_score r) 1 then f32_add sw (r_komi r) else sw)).

Lemma judged_exists dbg n order b w h fl : Nat.divide (snd n) (fst n) -> rgreach dbg n b w h -> (forall l, order l ≡ₚ l) -> is_over h = true -> gm_outcome h = None ->
  exists sb sw, judged_at order dbg h fl sb sw.
Proof.
  intros Hd HG Ho Ov O. destruct (core_score dbg n order b w h Hd HG Ho (flag_contains fl PRISONNERS) (flag_contains fl STONES)) as (sb & sw & UB & UW & E).
  exists sb, sw. split; [exact UB|]. split; [exact UW|]. intros r H1 H2. apply (judged _ _ _ _ _ _ Ov O). apply E; assumption.
Qed.

Lemma upto_finite k x : (0 <= k <= 200)%Z -> upto k x -> exists u, finite x u /\ (0 <= u <= 2 ^ k)%Z /\ (Z.abs u <= 2 ^ 200)%Z.
Proof.
  intros Hk (V & u & U & L). exists u. split; [split; assumption|]. split; [exact L|]. rewrite Z.abs_eq by lia. pose proof (Z.pow_le_mono_r 2 k 200 ltac:(lia) ltac:(lia)). lia.
Qed.

(** the verdict with more komi *)
Lemma more_komi_judge sb sw x y ux uy : upto 176 sb -> upto 176 sw -> finite x ux -> finite y uy -> (ux <= uy)%Z ->
  (judge sb (f32_add sw x) <= judge sb (f32_add sw y))%Z.
Proof.
  intros UB UW Fx Fy L. destruct (upto_finite 176 sb ltac:(lia) UB) as (ub & FB & _ & LB). destruct (upto_finite 176 sw ltac:(lia) UW) as (uw & FW & _ & LW).
  destruct (add_finite sw x uw ux FW LW Fx) as (u & Fu & _). destruct (add_finite sw y uw uy FW LW Fy) as (v & Fv & _).
  eapply judge_mono; [exact FB|exact LB|exact Fu|exact Fv|]. eapply (add_mono sw x y); eassumption.
Qed.

(** the verdict with no komi at all, and with a komi that is not positive *)
Lemma no_komi_judge sb sw x ux : upto 176 sb -> upto 176 sw -> finite x ux -> (ux <= 0)%Z -> (judge sb (f32_add sw x) <= judge sb sw)%Z.
Proof.
  intros UB UW Fx L. destruct (upto_finite 176 sb ltac:(lia) UB) as (ub & FB & _ & LB). destruct (upto_finite 176 sw ltac:(lia) UW) as (uw & FW & _ & LW).
  destruct (add_finite sw x uw ux FW LW Fx) as (u & Fu & R). eapply judge_mono; [exact FB|exact LB|exact Fu|exact FW|].
  destruct Fu as [_ Uu], FW as [Vw Uw]. eapply (rounds_le _ _ _ sw uw R Uu Vw Uw). lia.
Qed.

(** a very large komi decides the game *)
Definition HUGE : Z := 2 ^ 178.
Lemma huge_komi sb sw x ux : upto 176 sb -> upto 176 sw -> finite x ux ->
  ((HUGE <= ux)%Z -> judge sb (f32_add sw x) = 2%Z) /\ ((ux <= - HUGE)%Z -> judge sb (f32_add sw x) = 0%Z).
Proof.
  intros UB UW Fx. destruct (upto_finite 176 sb ltac:(lia) UB) as (ub & FB & BB & LB). destruct (upto_finite 176 sw ltac:(lia) UW) as (uw & FW & BW & LW).
  destruct (add_finite sw x uw ux FW LW Fx) as (u & Fu & R). destruct (judge_units sb (f32_add sw x) ub u FB LB Fu) as (d & Fd & ->).
  destruct (representable 1 178 ltac:(lia) ltac:(lia)) as (y & Vy & Uy). destruct (representable 1 177 ltac:(lia) ltac:(lia)) as (z & Vz & Uz).
  destruct (representable (-1) 177 ltac:(lia) ltac:(lia)) as (z' & Vz' & Uz').
  assert (D : rounds_to (f32_sub sb (f32_add sw x)) (ub - u)).
  { apply sub_rounds; try apply FB; try apply Fu. replace (ub - u)%Z with (- u + ub)%Z by lia. apply top_fits; [rewrite Z.abs_opp; exact (units_top _ u (proj1 Fu) (proj2 Fu))|exact LB]. }
  assert (P1 : (2 ^ 178 = 2 * 2 ^ 177)%Z) by reflexivity. assert (P2 : (2 ^ 177 = 2 * 2 ^ 176)%Z) by reflexivity. assert (P3 : (EPS_UNITS < 2 ^ 176)%Z) by reflexivity.
  unfold HUGE. rewrite Z.mul_1_l in Uy, Uz. replace (-1 * 2 ^ 177)%Z with (- 2 ^ 177)%Z in Uz' by lia.
  split; intros H.
  - pose proof (rounds_ge _ _ _ y _ R (proj2 Fu) Vy Uy ltac:(lia)). pose proof (rounds_le _ _ _ z' _ D (proj2 Fd) Vz' Uz' ltac:(lia)).
    destruct (Z.ltb_spec (Z.abs d) EPS_UNITS); [lia|]. destruct (Z.ltb_spec 0 d); [lia|reflexivity].
  - pose proof (rounds_le _ _ _ z' _ R (proj2 Fu) Vz' Uz' ltac:(lia)). pose proof (rounds_ge _ _ _ z _ D (proj2 Fd) Vz Uz ltac:(lia)).
    destruct (Z.ltb_spec (Z.abs d) EPS_UNITS); [lia|]. destruct (Z.ltb_spec 0 d); [reflexivity|lia].
Qed.
