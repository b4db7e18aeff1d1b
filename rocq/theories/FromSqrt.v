(** The square root in [From<&[MaybeColor]>] (src/pieces/goban.rs:39), for every length. *)
From Verif Require Import Float32 Float32Facts.
From Coq Require Import ZArith Lia SpecFloat.
Open Scope Z_scope.

(** [m * 2^e] is at least [t], without fractions *)
Definition atleast (t m e : Z) : Prop := if 0 <=? e then t <= m * 2 ^ e else t * 2 ^ (- e) <= m.

Lemma shr_1_div r : 0 <= shr_m r -> shr_m (shr_1 r) = shr_m r / 2.
Proof.
  destruct r as [[|p|p] a b]; cbn [shr_m]; intros H; [reflexivity| |lia].
  destruct p as [p|p|]; cbn [shr_1 shr_m].
  - change (Zpos p~1) with (2 * Zpos p + 1). rewrite Z.add_comm, Z.mul_comm, Z.div_add by lia. reflexivity.
  - change (Zpos p~0) with (2 * Zpos p). rewrite Z.mul_comm, Z.div_mul by lia. reflexivity.
  - reflexivity.
Qed.

Lemma shr_iter r n : 0 <= shr_m r -> shr_m (Nat.iter n shr_1 r) = shr_m r / 2 ^ Z.of_nat n.
Proof.
  intros H. induction n as [|n IH]; [cbn; rewrite Z.div_1_r; reflexivity|].
  change (Nat.iter (S n) shr_1 r) with (shr_1 (Nat.iter n shr_1 r)). rewrite shr_1_div, IH.
  - rewrite Nat2Z.inj_succ, Z.pow_succ_r by lia. rewrite Z.div_div by (try apply Z.pow_pos_nonneg; lia). f_equal. lia.
  - rewrite IH. apply Z.div_pos; [exact H|apply Z.pow_pos_nonneg; lia].
Qed.

Lemma shr_spec r e n : 0 <= shr_m r ->
  shr_m (fst (shr r e n)) = shr_m r / 2 ^ Z.max 0 n /\ snd (shr r e n) = e + Z.max 0 n.
Proof.
  intros H. unfold shr. destruct n as [|p|p]; cbn [fst snd].
  - rewrite Z.max_id, Z.div_1_r. split; [reflexivity|lia].
  - rewrite iter_pos_nat, shr_iter by exact H. rewrite positive_nat_Z. split; reflexivity.
  - rewrite Z.max_l by lia. rewrite Z.div_1_r. split; [reflexivity|lia].
Qed.

Lemma rol_m m l : shr_m (shr_record_of_loc m l) = m.
Proof. destruct l as [|[| |]]; reflexivity. Qed.

Lemma zdigits_dg p : Zdigits2 (Zpos p) = dg p.
Proof. reflexivity. Qed.

Lemma quarter t e : (t = 20 \/ t = 400) -> 0 <= e <= 2 -> exists u, t = u * 2 ^ e.
Proof.
  intros Ht He. exists (t / 2 ^ e). assert (He' : e = 0 \/ e = 1 \/ e = 2) by lia.
  destruct Ht as [->| ->], He' as [->|[->| ->]]; reflexivity.
Qed.

(** one shift keeps the bound *)
Lemma shift_keeps t p l e : (t = 20 \/ t = 400) -> atleast t (Zpos p) e ->
  let r := shr_fexp prec32 emax32 (Zpos p) e l in
  atleast t (shr_m (fst r)) (snd r) /\ 0 <= shr_m (fst r).
Proof.
  intros Ht H. cbv zeta. unfold shr_fexp.
  destruct (shr_spec (shr_record_of_loc (Zpos p) l) e (fexp prec32 emax32 (Zdigits2 (Zpos p) + e) - e)) as [-> ->];
    rewrite ?rol_m; [lia|].
  set (j := Z.max 0 (fexp prec32 emax32 (Zdigits2 (Zpos p) + e) - e)).
  split; [|apply Z.div_pos; [lia|apply Z.pow_pos_nonneg; lia]].
  assert (Hf : fexp prec32 emax32 (Zdigits2 (Zpos p) + e) = Z.max (dg p + e - 24) (-149)).
  { unfold fexp. rewrite zdigits_dg. unfold prec32, SpecFloat.emin, emax32. f_equal; lia. }
  assert (Ej : j = Z.max 0 (Z.max (dg p + e - 24) (-149) - e)) by (unfold j; rewrite Hf; reflexivity). clearbody j. pose proof (dg_bounds p) as [D1 D2]. pose proof (dg_pos p).
  assert (Hj : 0 <= j) by lia.
  assert (Hp : 0 < 2 ^ j) by (apply Z.pow_pos_nonneg; lia).
  unfold atleast in *. destruct (Z.leb_spec 0 e) as [He|He], (Z.leb_spec 0 (e + j)) as [Hej|Hej]; try lia.
  - (* 0 <= e *)
    destruct (Z.eq_dec j 0) as [->|J]; [rewrite Z.div_1_r, Z.add_0_r; exact H|].
    assert (Hd : 24 <= dg p - j) by lia.
    assert (2 ^ 23 <= Zpos p / 2 ^ j).
    { apply Z.div_le_lower_bound; [lia|]. rewrite <- Z.pow_add_r by lia. etransitivity; [|exact D1]. apply Z.pow_le_mono_r; lia. }
    assert (1 <= 2 ^ (e + j)) by (pose proof (Z.pow_pos_nonneg 2 (e + j)); lia).
    change (2 ^ 23) with 8388608 in *. nia.
  - (* e < 0 <= e + j *)
    destruct (Z.le_gt_cases (e + j) 2) as [H2|H2].
    + destruct (quarter t (e + j) Ht ltac:(lia)) as [u Hu].
      assert (Hq : u * 2 ^ j <= Zpos p).
      { etransitivity; [|exact H]. rewrite Hu. rewrite <- Z.mul_assoc, <- Z.pow_add_r by lia.
        replace (e + j + - e) with j by lia. lia. }
      assert (u <= Zpos p / 2 ^ j) by (apply Z.div_le_lower_bound; lia).
      rewrite Hu. apply Z.mul_le_mono_nonneg_r; [apply Z.pow_nonneg; lia|assumption].
    + assert (Hd : 24 <= dg p - j) by lia.
      assert (2 ^ 23 <= Zpos p / 2 ^ j).
      { apply Z.div_le_lower_bound; [lia|]. rewrite <- Z.pow_add_r by lia. etransitivity; [|exact D1]. apply Z.pow_le_mono_r; lia. }
      assert (1 <= 2 ^ (e + j)) by (pose proof (Z.pow_pos_nonneg 2 (e + j)); lia).
      change (2 ^ 23) with 8388608 in *. nia.
  - apply Z.div_le_lower_bound; [lia|]. rewrite (Z.mul_comm (2 ^ j)), <- Z.mul_assoc, <- Z.pow_add_r by lia.
    replace (- (e + j) + j) with (- e) by lia. exact H.
Qed.

Lemma atleast_up t m m' e : m <= m' -> atleast t m e -> atleast t m' e.
Proof.
  unfold atleast. intros H. destruct (0 <=? e); [|lia]. intros G.
  pose proof (Z.pow_nonneg 2 e ltac:(lia)). nia.
Qed.

Lemma atleast_pos t m e : 0 < t -> atleast t m e -> 0 < m.
Proof.
  unfold atleast. intros Ht. destruct (Z.leb_spec 0 e); intros G.
  - pose proof (Z.pow_pos_nonneg 2 e). nia.
  - pose proof (Z.pow_pos_nonneg 2 (- e)). nia.
Qed.

Lemma round_up m l : m <= round_nearest_even m l.
Proof. unfold round_nearest_even. destruct l as [|[| |]]; try lia. destruct (Z.even m); lia. Qed.

(** what a positive float is worth at least *)
Definition worth (t : Z) (f : f32) : Prop :=
  match f with S754_finite false m e => atleast t (Zpos m) e | S754_infinity false => True | _ => False end.

Lemma round_worth t p e l : (t = 20 \/ t = 400) -> atleast t (Zpos p) e ->
  worth t (binary_round_aux prec32 emax32 false (Zpos p) e l).
Proof.
  intros Ht H. unfold binary_round_aux.
  pose proof (shift_keeps t p l e Ht H) as [H1 _].
  destruct (shr_fexp prec32 emax32 (Zpos p) e l) as [mrs e1]. cbn [fst snd] in *.
  set (m1 := round_nearest_even (shr_m mrs) (loc_of_shr_record mrs)).
  assert (H2 : atleast t m1 e1) by (eapply atleast_up; [apply round_up|exact H1]).
  pose proof (atleast_pos t m1 e1 ltac:(lia) H2) as Hm. destruct m1 as [|q|q]; try lia.
  pose proof (shift_keeps t q loc_Exact e1 Ht H2) as [H3 _].
  destruct (shr_fexp prec32 emax32 (Zpos q) e1 loc_Exact) as [mrs2 e2]. cbn [fst snd] in *.
  pose proof (atleast_pos t (shr_m mrs2) e2 ltac:(lia) H3) as Hm2.
  destruct (shr_m mrs2) as [|q2|q2] eqn:E2; try lia.
  destruct (e2 <=? emax32 - prec32); [exact H3|exact I].
Qed.

Lemma of_N_worth x : (400 <= x)%N -> worth 400 (f32_of_N x).
Proof.
  intros H. unfold f32_of_N, f32_make, binary_normalize. destruct x as [|p]; [lia|]. cbn [Z.of_N].
  unfold binary_round, shl_align.
  set (d := fexp prec32 emax32 (Zpos (digits2_pos p) + 0) - 0).
  destruct d as [|k|k] eqn:E.
  - apply round_worth; [right; reflexivity|]. unfold atleast. cbn. lia.
  - apply round_worth; [right; reflexivity|]. unfold atleast. cbn. lia.
  - apply round_worth; [right; reflexivity|]. unfold atleast. rewrite shift_pos_shl, shl_val, positive_nat_Z.
    assert (Hd : fexp prec32 emax32 (Zpos (digits2_pos p) + 0) = Zneg k) by (unfold d in E; lia). rewrite Hd.
    destruct (Z.leb_spec 0 (Zneg k)); [lia|]. cbn [Z.opp]. apply Z.mul_le_mono_nonneg_r; [apply Z.pow_nonneg; lia|lia].
Qed.

Lemma sqrt_worth f : worth 400 f -> worth 20 (f32_sqrt f).
Proof.
  unfold f32_sqrt. destruct f as [s|[|]| |[|] m e]; cbn [worth]; try contradiction; intros H; [exact I|].
  cbn [SFsqrt]. unfold SFsqrt_core_binary.
  set (d := Zdigits2 (Zpos m)). set (e' := Z.min (fexp prec32 emax32 (Z.div2 (d + e + 1))) (Z.div2 e)).
  set (s := e - 2 * e'). assert (Hs : 0 <= s) by (pose proof (Z.div2_odd e); destruct (Z.odd e); cbn [Z.b2z] in *; lia).
  assert (Hm : (match s with Z0 => Zpos m | Zpos _ => Z.shiftl (Zpos m) s | Zneg _ => 0 end) = Zpos m * 2 ^ s).
  { destruct s as [|k|k] eqn:E; [lia| |lia]. apply Z.shiftl_mul_pow2; lia. }
  rewrite Hm. set (m' := Zpos m * 2 ^ s). pose proof (Z.sqrtrem_spec m') as Hq.
  assert (Hm' : 0 < m') by (apply Z.mul_pos_pos; [lia|apply Z.pow_pos_nonneg; lia]).
  specialize (Hq ltac:(lia)). destruct (Z.sqrtrem m') as [q r]. destruct Hq as [Hq Hr].
  assert (Q0 : 0 <= q) by lia.
  assert (HQ : forall a, 0 <= a -> a * a <= m' -> a <= q) by (intros a Ha Hl; nia).
  assert (G : atleast 20 q e').
  { destruct (Z.le_gt_cases e' 2) as [H2|H2].
    - assert (H4 : atleast 400 m' (2 * e')).
      { unfold atleast, m' in *. destruct (Z.leb_spec 0 e), (Z.leb_spec 0 (2 * e')).
        - rewrite <- Z.mul_assoc, <- Z.pow_add_r by lia. replace (s + 2 * e') with e by (unfold s; lia). exact H.
        - replace s with (e + - (2 * e')) by (unfold s; lia). rewrite Z.pow_add_r by lia. rewrite Z.mul_assoc.
          apply Z.mul_le_mono_nonneg_r; [apply Z.pow_nonneg; lia|exact H].
        - unfold s in Hs. lia.
        - replace (- (2 * e')) with (- e + s) by (unfold s; lia). rewrite Z.pow_add_r by lia. rewrite Z.mul_assoc.
          apply Z.mul_le_mono_nonneg_r; [apply Z.pow_nonneg; lia|exact H]. }
      unfold atleast in *. destruct (Z.leb_spec 0 e'), (Z.leb_spec 0 (2 * e')); try lia.
      + assert (He : e' = 0 \/ e' = 1 \/ e' = 2) by lia. revert He H4 HQ. generalize m', e', q. clear. intros m' e' q He H4 HQ. revert H4.
        destruct He as [->|[->| ->]]; cbn; intros H4.
        * pose proof (HQ 20). lia.
        * pose proof (HQ 10). lia.
        * pose proof (HQ 5). lia.
      + apply HQ; [pose proof (Z.pow_nonneg 2 (- e')); lia|].
        replace (- (2 * e')) with (- e' + - e') in H4 by lia. rewrite Z.pow_add_r in H4 by lia. nia.
    - assert (Hf : e' <= Z.max (Z.div2 (d + e + 1) - 24) (-149)).
      { unfold e'. unfold fexp, prec32, SpecFloat.emin, emax32. lia. }
      pose proof (Z.div2_odd (d + e + 1)) as Ho.
      assert (Hb : (if Z.odd (d + e + 1) then 1 else 0) >= 0) by (destruct (Z.odd _); lia).
      assert (Hde : 2 * e' <= d + e + 1 - 48) by (unfold Z.b2z in Ho; lia).
      pose proof (dg_bounds m) as [D1 _]. change (dg m) with d in D1. pose proof (dg_pos m) as D0. change (dg m) with d in D0.
      assert (HB : 2 ^ 46 <= m').
      { unfold m'. transitivity (2 ^ (d - 1) * 2 ^ s).
        - rewrite <- Z.pow_add_r by lia. apply Z.pow_le_mono_r; [lia|]. unfold s. lia.
        - apply Z.mul_le_mono_nonneg_r; [apply Z.pow_nonneg; lia|exact D1]. }
      assert (8388608 <= q) by (apply HQ; [lia|exact HB]).
      unfold atleast. destruct (Z.leb_spec 0 e'); [|lia]. pose proof (Z.pow_pos_nonneg 2 e'). nia. }
  pose proof (atleast_pos 20 q e' ltac:(lia) G) as Hp. destruct q as [|q|q]; try lia.
  apply round_worth; [left; reflexivity|exact G].
Qed.

Lemma as_u8_worth f : worth 20 f -> (20 <= f32_as_u8 f)%nat.
Proof.
  destruct f as [s|[|]| |[|] m e]; cbn [worth]; try contradiction; intros H.
  - cbn. lia.
  - cbn [f32_as_u8]. unfold atleast in H. apply Nat2Z.inj_le. rewrite Z2Nat.id.
    + apply Z.min_glb; [lia|]. destruct (0 <=? e) eqn:E; [exact H|].
      apply Z.leb_gt in E. apply Z.div_le_lower_bound; [apply Z.pow_pos_nonneg; lia|]. change (Z.of_nat 20) with 20. lia.
    + apply Z.min_glb; [lia|]. destruct (0 <=? e) eqn:E.
      * apply Z.mul_nonneg_nonneg; [lia|apply Z.pow_nonneg; lia].
      * apply Z.leb_gt in E. apply Z.div_pos; [lia|apply Z.pow_pos_nonneg; lia].
Qed.

Lemma sqrt_large x : (400 <= x)%N -> (20 <= f32_as_u8 (f32_sqrt (f32_of_N x)))%nat.
Proof. intros H. apply as_u8_worth, sqrt_worth, of_N_worth, H. Qed.

Lemma sqrt_small_all : forallb (fun n => (f32_as_u8 (f32_sqrt (f32_of_N (N.of_nat n))) =? Nat.sqrt n)%nat) (seq 0 400) = true.
Proof. vm_compute. reflexivity. Qed.

Lemma sqrt_small n : (n < 400)%nat -> f32_as_u8 (f32_sqrt (f32_of_N (N.of_nat n))) = Nat.sqrt n.
Proof.
  intros H. pose proof sqrt_small_all as F. rewrite forallb_forall in F. apply Nat.eqb_eq, F, List.in_seq. lia.
Qed.
