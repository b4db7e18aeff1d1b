(** Rounded sums and differences are monotone. *)
From Verif Require Import Float32 ScoreSpec RoundSpec Float32Facts RoundFacts FloatSwap.
From Coq Require Import Lia ZArith.
Local Open Scope Z_scope.

Lemma rounds_mono x x' z z' u u' : rounds_to x z -> rounds_to x' z' -> units x = Some u -> units x' = Some u' -> z < z' -> u <= u'.
Proof.
  intros (V & u0 & U0 & H) (V' & u0' & U0' & H') U U' L. rewrite U in U0. injection U0 as <-. rewrite U' in U0'. injection U0' as <-.
  destruct (H x' u' V' U') as [E|K]; [lia|]. destruct (H' x u V U) as [E|K']; [lia|]. lia.
Qed.

(** two [f32] of the same value are the same or both zero *)
Lemma units_inj x y u : is_f32 x -> is_f32 y -> units x = Some u -> units y = Some u -> x = y \/ u = 0.
Proof.
  intros V V' U U'. destruct x as [s| | |s m e], y as [s'| | |s' m' e']; try discriminate; cbn [units] in U, U'; try (right; congruence).
  left. unfold is_f32 in V, V'. cbn [valid_binary] in V, V'. pose proof (bounded_facts _ _ V) as [B _]. pose proof (bounded_facts _ _ V') as [B' _].
  pose proof (pow2_pos (e + 149) ltac:(lia)). pose proof (pow2_pos (e' + 149) ltac:(lia)).
  apply (f_equal (fun o => match o with Some z => z | None => 0 end)) in U, U'. cbv beta iota in U, U'. rewrite <- U' in U. clear U'.
  pose proof (Z.mul_pos_pos (Zpos m) (2 ^ (e + 149)) eq_refl ltac:(assumption)). pose proof (Z.mul_pos_pos (Zpos m') (2 ^ (e' + 149)) eq_refl ltac:(assumption)).
  assert (X : forall z c, (- z) * c = - (z * c)) by (intros; ring).
  assert (Es : s = s') by (destruct s, s'; cbn [cond_Zopp] in U; try reflexivity; exfalso; rewrite X in U; lia). subst s'.
  assert (E : Zpos m * 2 ^ (e + 149) = Zpos m' * 2 ^ (e' + 149)) by (destruct s; cbn [cond_Zopp] in U; rewrite ?X in U; lia).
  destruct (Z.lt_trichotomy e e') as [L|[<-|L]]; [pose proof (bounded_lt _ _ _ _ V V' L); lia| |pose proof (bounded_lt _ _ _ _ V' V L); lia].
  assert (Zpos m = Zpos m') by nia. f_equal. congruence.
Qed.

(** the largest finite number *)
Definition TOP : Z := (2 ^ 24 - 1) * 2 ^ 253.

Lemma units_top x u : is_f32 x -> units x = Some u -> Z.abs u <= TOP.
Proof.
  intros V U. destruct x as [s| | |s m e]; try discriminate; cbn [units] in U; injection U as <-; [vm_compute; discriminate|].
  unfold is_f32 in V. cbn [valid_binary] in V. pose proof (bounded_facts _ _ V) as [B _]. pose proof (bounded_dg _ _ V) as D.
  replace (Z.abs (cond_Zopp s (Zpos m) * 2 ^ (e + 149))) with (Zpos m * 2 ^ (e + 149)) by (pose proof (pow2_pos (e + 149) ltac:(lia)); destruct s; cbn [cond_Zopp]; nia).
  pose proof (Z.pow_le_mono_r 2 (e + 149) 253 ltac:(lia) ltac:(lia)) as P. unfold TOP.
  assert (Zpos m <= 2 ^ 24 - 1).
  { pose proof (dg_bounds m) as Q. pose proof (Z.pow_le_mono_r 2 (dg m) 24 ltac:(lia) D). lia. }
  pose proof (pow2_pos (e + 149) ltac:(lia)). nia.
Qed.

Lemma top_fits u v : Z.abs u <= TOP -> Z.abs v <= 2 ^ 200 -> Z.abs (u + v) < overflow_from.
Proof. intros H K. assert (TOP + 2 ^ 200 < overflow_from) by (vm_compute; reflexivity). lia. Qed.

(** [x] is finite *)
Definition finite (x : f32) (u : Z) : Prop := is_f32 x /\ units x = Some u.

Lemma rounds_finite x z : rounds_to x z -> exists u, finite x u.
Proof. intros (V & u & U & _). exists u. split; assumption. Qed.

Lemma add_mono a x y ua ux uy u v : finite a ua -> Z.abs ua <= 2 ^ 200 -> finite x ux -> finite y uy -> ux <= uy ->
  finite (f32_add a x) u -> finite (f32_add a y) v -> u <= v.
Proof.
  intros [Va Ua] Ba [Vx Ux] [Vy Uy] L [_ U] [_ U'].
  assert (R : rounds_to (f32_add a x) (ua + ux)) by (apply add_rounds; try assumption; rewrite Z.add_comm; apply top_fits; [exact (units_top x ux Vx Ux)|exact Ba]).
  assert (R' : rounds_to (f32_add a y) (ua + uy)) by (apply add_rounds; try assumption; rewrite Z.add_comm; apply top_fits; [exact (units_top y uy Vy Uy)|exact Ba]).
  destruct (Z.eq_dec ux uy) as [<-|N].
  - destruct (units_inj x y ux Vx Vy Ux Uy) as [->| ->]; [rewrite U in U'; injection U' as ->; lia|]. rewrite Z.add_0_r in R, R'.
    rewrite (rounds_self _ _ _ R Va Ua) in U. rewrite (rounds_self _ _ _ R' Va Ua) in U'. injection U as <-. injection U' as <-. lia.
  - eapply rounds_mono; [exact R|exact R'|exact U|exact U'|lia].
Qed.

Lemma sub_anti a x y ua ux uy u v : finite a ua -> Z.abs ua <= 2 ^ 200 -> finite x ux -> finite y uy -> ux <= uy ->
  finite (f32_sub a x) u -> finite (f32_sub a y) v -> v <= u.
Proof.
  intros [Va Ua] Ba [Vx Ux] [Vy Uy] L [_ U] [_ U'].
  assert (R : rounds_to (f32_sub a x) (ua - ux)) by (apply sub_rounds; try assumption; replace (ua - ux) with (- ux + ua) by lia; apply top_fits; [rewrite Z.abs_opp; exact (units_top x ux Vx Ux)|exact Ba]).
  assert (R' : rounds_to (f32_sub a y) (ua - uy)) by (apply sub_rounds; try assumption; replace (ua - uy) with (- uy + ua) by lia; apply top_fits; [rewrite Z.abs_opp; exact (units_top y uy Vy Uy)|exact Ba]).
  destruct (Z.eq_dec ux uy) as [<-|N].
  - destruct (units_inj x y ux Vx Vy Ux Uy) as [->| ->]; [rewrite U in U'; injection U' as ->; lia|]. rewrite Z.sub_0_r in R, R'.
    rewrite (rounds_self _ _ _ R Va Ua) in U. rewrite (rounds_self _ _ _ R' Va Ua) in U'. injection U as <-. injection U' as <-. lia.
  - eapply rounds_mono; [exact R'|exact R|exact U'|exact U|lia].
Qed.

Lemma add_finite a x ua ux : finite a ua -> Z.abs ua <= 2 ^ 200 -> finite x ux -> exists u, finite (f32_add a x) u /\ rounds_to (f32_add a x) (ua + ux).
Proof.
  intros [Va Ua] Ba [Vx Ux].
  assert (R : rounds_to (f32_add a x) (ua + ux)) by (apply add_rounds; try assumption; rewrite Z.add_comm; apply top_fits; [exact (units_top x ux Vx Ux)|exact Ba]).
  destruct (rounds_finite _ _ R) as (u & F). eauto.
Qed.

Lemma sub_finite a x ua ux : finite a ua -> Z.abs ua <= 2 ^ 200 -> finite x ux -> exists u, finite (f32_sub a x) u /\ (u <= 0 <-> ua <= ux) /\ (0 <= u <-> ux <= ua).
Proof.
  intros [Va Ua] Ba [Vx Ux].
  assert (R : rounds_to (f32_sub a x) (ua - ux)) by (apply sub_rounds; try assumption; replace (ua - ux) with (- ux + ua) by lia; apply top_fits; [rewrite Z.abs_opp; exact (units_top x ux Vx Ux)|exact Ba]).
  destruct (rounds_finite _ _ R) as (u & F). exists u. split; [exact F|]. destruct F as [V U].
  assert (O : is_f32 (S754_finite false 1 (-149)) /\ units (S754_finite false 1 (-149)) = Some 1) by (split; vm_compute; reflexivity).
  assert (M : is_f32 (S754_finite true 1 (-149)) /\ units (S754_finite true 1 (-149)) = Some (-1)) by (split; vm_compute; reflexivity).
  assert (Zr : is_f32 (S754_zero false) /\ units (S754_zero false) = Some 0) by (split; vm_compute; reflexivity).
  destruct (Z.lt_trichotomy ua ux) as [L|[E|L]].
  - pose proof (rounds_le _ _ _ _ _ R U (proj1 M) (proj2 M) ltac:(lia)). lia.
  - pose proof (rounds_le _ _ _ _ _ R U (proj1 Zr) (proj2 Zr) ltac:(lia)). pose proof (rounds_ge _ _ _ _ _ R U (proj1 Zr) (proj2 Zr) ltac:(lia)). lia.
  - pose proof (rounds_ge _ _ _ _ _ R U (proj1 O) (proj2 O) ltac:(lia)). lia.
Qed.

(** ** Who has more points *)

(** 0 for Black, 1 for nobody, 2 for White *)
Definition judge (b w : f32) : Z :=
  if f32_lt (f32_abs (f32_sub b w)) f32_EPSILON then 1 else if f32_lt w b then 0 else 2.

Definition EPS_UNITS : Z := 2 ^ 126.
Lemma eps_finite : finite f32_EPSILON EPS_UNITS.
Proof. split; vm_compute; reflexivity. Qed.

Lemma judge_units b w ub uw : finite b ub -> Z.abs ub <= 2 ^ 200 -> finite w uw ->
  exists d, finite (f32_sub b w) d /\ judge b w = (if Z.abs d <? EPS_UNITS then 1 else if 0 <? d then 0 else 2).
Proof.
  intros Fb Bb Fw. destruct (sub_finite b w ub uw Fb Bb Fw) as (d & Fd & S1 & S2). exists d. split; [exact Fd|]. unfold judge.
  destruct Fb as [Vb Ub], Fw as [Vw Uw], Fd as [Vd Ud], eps_finite as [Ve Ue].
  destruct (abs_units _ _ Vd Ud) as (Va & Ua). rewrite (lt_units _ _ _ _ Va Ve Ua Ue), (lt_units _ _ _ _ Vw Vb Uw Ub).
  destruct (Z.ltb_spec (Z.abs d) EPS_UNITS); [reflexivity|]. destruct (Z.ltb_spec uw ub), (Z.ltb_spec 0 d); try reflexivity; lia.
Qed.

Lemma judge_mono b w w' ub uw uw' : finite b ub -> Z.abs ub <= 2 ^ 200 -> finite w uw -> finite w' uw' -> uw <= uw' -> judge b w <= judge b w'.
Proof.
  intros Fb Bb Fw Fw' L. destruct (judge_units b w ub uw Fb Bb Fw) as (d & Fd & ->). destruct (judge_units b w' ub uw' Fb Bb Fw') as (d' & Fd' & ->).
  pose proof (sub_anti b w w' ub uw uw' d d' Fb Bb Fw Fw' L Fd Fd').
  destruct (Z.ltb_spec (Z.abs d) EPS_UNITS), (Z.ltb_spec (Z.abs d') EPS_UNITS), (Z.ltb_spec 0 d), (Z.ltb_spec 0 d'); try lia.
Qed.
