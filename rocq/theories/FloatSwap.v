(** The difference of two [f32] has the same absolute value either way round, and
    sums of whole numbers that are not too large stay finite. *)
From Verif Require Import Float32 ScoreSpec RoundSpec Float32Facts RoundFacts.
From Coq Require Import Lia ZArith.
Local Open Scope Z_scope.

Lemma abs_round s p e : SFabs (binary_round prec32 emax32 s p e) = SFabs (binary_round prec32 emax32 false p e).
Proof.
  unfold binary_round. destruct (shl_align _ _ _) as [m' e']. unfold binary_round_aux.
  destruct (shr_fexp _ _ _ _ _) as [r e1]. destruct (shr_fexp _ _ _ _ _) as [r' e2].
  destruct (shr_m r'); [reflexivity| |reflexivity]. destruct (_ <=? _); reflexivity.
Qed.

Lemma abs_normalize z e b b' : SFabs (binary_normalize prec32 emax32 z e b) = SFabs (binary_normalize prec32 emax32 (- z) e b').
Proof. destruct z; cbn [binary_normalize Z.opp]; [reflexivity|symmetry|]; apply abs_round. Qed.

Lemma abs_sub_swap x y : f32_abs (f32_sub x y) = f32_abs (f32_sub y x).
Proof.
  unfold f32_abs, f32_sub. destruct x as [[]|[]| |sx mx ex], y as [[]|[]| |sy my ey]; try reflexivity.
  cbn [SFsub]. rewrite Z.min_comm, (abs_normalize _ _ false false). f_equal. f_equal. lia.
Qed.

(** finite, not negative, at most [2 ^ (k - 149)] *)
Definition upto (k : Z) (x : f32) : Prop := is_f32 x /\ exists u, units x = Some u /\ 0 <= u <= 2 ^ k.

Lemma rounds_upto x z k : 149 <= k <= 200 -> rounds_to x z -> 0 <= z <= 2 ^ k -> upto k x.
Proof.
  intros Hk R Hz. pose proof R as (V & u & U & _). split; [exact V|]. exists u. split; [exact U|].
  destruct (representable 0 k ltac:(lia) ltac:(lia)) as (y0 & V0 & U0). destruct (representable 1 k ltac:(lia) ltac:(lia)) as (y1 & V1 & U1).
  rewrite Z.mul_0_l in U0. rewrite Z.mul_1_l in U1. split; [apply (rounds_ge x z u y0 0 R U V0 U0); lia|apply (rounds_le x z u y1 (2 ^ k) R U V1 U1); lia].
Qed.

Lemma no_overflow k : 0 <= k <= 201 -> 2 ^ k < overflow_from.
Proof. intros H. eapply Z.le_lt_trans; [apply (Z.pow_le_mono_r 2 k 201); lia|]. vm_compute. reflexivity. Qed.

Lemma of_N_upto x k : 149 <= k <= 200 -> (Z.of_N x * 2 ^ 149 <= 2 ^ k) -> upto k (f32_of_N x).
Proof.
  intros Hk H. pose proof (no_overflow k ltac:(lia)) as O. eapply (rounds_upto _ (Z.of_N x * 2 ^ 149)); [exact Hk| |split; [lia|exact H]].
  apply (normalize_rounds (Z.of_N x) 0); [lia|]. rewrite Z.abs_eq by lia. change (0 + 149) with 149. lia.
Qed.

Lemma upto_add x y k : 149 <= k < 200 -> upto k x -> upto k y -> upto (k + 1) (f32_add x y).
Proof.
  intros Hk (V & u & U & B) (V' & v & U' & B'). assert (E : 2 ^ (k + 1) = 2 * 2 ^ k) by (rewrite Z.pow_add_r by lia; ring).
  pose proof (no_overflow (k + 1) ltac:(lia)) as O. eapply (rounds_upto _ (u + v)); [lia| |lia].
  apply add_rounds; try assumption. rewrite Z.abs_eq by lia. lia.
Qed.

Lemma upto_more x k k' : 0 <= k <= k' -> upto k x -> upto k' x.
Proof. intros H (V & u & U & B). split; [exact V|]. exists u. split; [exact U|]. pose proof (Z.pow_le_mono_r 2 k k' ltac:(lia) ltac:(lia)). lia. Qed.

(** two finite numbers that are not too large: either they count as equal, or one is smaller *)
Lemma upto_compare x y k : 149 <= k <= 200 -> upto k x -> upto k y -> f32_lt (f32_abs (f32_sub x y)) f32_EPSILON = false -> f32_lt x y = negb (f32_lt y x).
Proof.
  intros Hk (V & u & U & B) (V' & v & U' & B') H. rewrite (lt_units _ _ _ _ V V' U U'), (lt_units _ _ _ _ V' V U' U).
  destruct (Z.ltb_spec u v), (Z.ltb_spec v u); try reflexivity; try lia. exfalso.
  assert (v = u) by lia. subst v. pose proof (no_overflow 0 ltac:(lia)) as O.
  assert (R : rounds_to (f32_sub x y) (u - u)) by (apply sub_rounds; try assumption; rewrite Z.sub_diag; cbn; lia).
  rewrite Z.sub_diag in R. destruct (representable 0 149 ltac:(lia) ltac:(lia)) as (y0 & V0 & U0). rewrite Z.mul_0_l in U0.
  pose proof (rounds_self _ _ _ R V0 U0) as US. destruct R as (VS & _). destruct (abs_units _ _ VS US) as (VA & UA). cbn in UA.
  assert (VE : is_f32 f32_EPSILON /\ exists e, units f32_EPSILON = Some e /\ 0 < e) by (split; [vm_compute; reflexivity|eexists; split; [reflexivity|vm_compute; reflexivity]]).
  destruct VE as (VE & e & UE & Pe). rewrite (lt_units _ _ _ _ VA VE UA UE) in H. apply Z.ltb_ge in H. lia.
Qed.
