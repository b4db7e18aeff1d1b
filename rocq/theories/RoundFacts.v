(** The additions and subtractions of the model round correctly; without axioms. *)
From Verif Require Import Float32 ScoreSpec RoundSpec Float32Facts.
From Coq Require Import Lia ZArith Zpower SpecFloat.
Open Scope Z_scope.

Lemma pow2_pos k : 0 <= k -> 0 < 2 ^ k.
Proof. intros. apply Z.pow_pos_nonneg; lia. Qed.

(** ** Shifting right *)

(** where [rho] lies between 0 and [w] *)
Definition located (l : location) (rho w : Z) : Prop :=
  match l with
  | loc_Exact => rho = 0
  | loc_Inexact Lt => 0 < rho /\ 2 * rho < w
  | loc_Inexact Eq => 0 < rho /\ 2 * rho = w
  | loc_Inexact Gt => w < 2 * rho
  end.

Lemma shr_iter n m : 0 <= m -> exists rho,
  let r := Nat.iter n shr_1 (Build_shr_record m false false) in
  m = shr_m r * 2 ^ Z.of_nat n + rho /\ 0 <= rho < 2 ^ Z.of_nat n /\ 0 <= shr_m r /\
  located (loc_of_shr_record r) rho (2 ^ Z.of_nat n).
Proof.
  intros Hm. induction n as [|n IH].
  - exists 0. cbn. lia.
  - destruct IH as (rho & E & B & Hr & L). cbn zeta in *.
    change (Nat.iter (S n) shr_1 (Build_shr_record m false false)) with (shr_1 (Nat.iter n shr_1 (Build_shr_record m false false))).
    set (r := Nat.iter n shr_1 (Build_shr_record m false false)) in *.
    rewrite Nat2Z.inj_succ, Z.pow_succ_r by lia. set (w := 2 ^ Z.of_nat n) in *.
    assert (Hw : 0 < w) by (apply pow2_pos; lia).
    destruct r as [M rb sb]. cbn [shr_m] in *.
    assert (Hs : (rb || sb = false)%bool -> rho = 0).
    { intros H. apply orb_false_iff in H as [-> ->]. exact L. }
    assert (Hs' : (rb || sb = true)%bool -> 0 < rho).
    { destruct rb, sb; intros H; try discriminate; cbn in L; lia. }
    destruct M as [|[p|p|]|p]; [| | | |lia].
    + exists rho. cbn [shr_1 shr_m]. repeat split; try lia.
      destruct (rb || sb)%bool; cbn [loc_of_shr_record located]; [|apply Hs; reflexivity].
      specialize (Hs' eq_refl). lia.
    + exists (w + rho). cbn [shr_1 shr_m]. repeat split; try lia.
      destruct (rb || sb)%bool; cbn [loc_of_shr_record located]; [specialize (Hs' eq_refl)|specialize (Hs eq_refl)]; lia.
    + exists rho. cbn [shr_1 shr_m]. repeat split; try lia.
      destruct (rb || sb)%bool; cbn [loc_of_shr_record located]; [|apply Hs; reflexivity].
      specialize (Hs' eq_refl). lia.
    + exists (w + rho). cbn [shr_1 shr_m]. repeat split; try lia.
      destruct (rb || sb)%bool; cbn [loc_of_shr_record located]; [specialize (Hs' eq_refl)|specialize (Hs eq_refl)]; lia.
Qed.

Lemma shr_fexp_none m e : 0 < m -> fexp prec32 emax32 (Zdigits2 m + e) <= e ->
  shr_fexp prec32 emax32 m e loc_Exact = (Build_shr_record m false false, e).
Proof.
  intros Hm H. unfold shr_fexp. cbn [shr_record_of_loc]. unfold shr.
  destruct (fexp prec32 emax32 (Zdigits2 m + e) - e) as [|x|x] eqn:E; [reflexivity|lia|reflexivity].
Qed.

Lemma shr_fexp_some m e j : 0 < m -> fexp prec32 emax32 (Zdigits2 m + e) = e + Z.of_nat j ->
  shr_fexp prec32 emax32 m e loc_Exact = (Nat.iter j shr_1 (Build_shr_record m false false), e + Z.of_nat j).
Proof.
  intros Hm H. unfold shr_fexp. cbn [shr_record_of_loc]. rewrite H. unfold shr.
  replace (e + Z.of_nat j - e) with (Z.of_nat j) by lia. destruct (Z.of_nat j) as [|x|x] eqn:E; [|rewrite iter_pos_nat|lia].
  - assert (j = 0%nat) by lia. subst j. cbn. f_equal. lia.
  - replace (Pos.to_nat x) with j by lia. reflexivity.
Qed.

Lemma fexp_max e : fexp prec32 emax32 e = Z.max (e - 24) (-149).
Proof. reflexivity. Qed.

Lemma even_near (q m1 w rho : Z) l : 0 < w -> 0 <= rho < w -> located l rho w -> m1 = round_nearest_even q l ->
  2 * Z.abs (m1 * w - (q * w + rho)) <= w /\
  (2 * Z.abs (m1 * w - (q * w + rho)) = w -> Z.even m1 = true).
Proof.
  intros Hw Hr L ->. destruct l as [|[| |]]; cbn [located round_nearest_even] in *.
  - subst rho. replace (q * w - (q * w + 0)) with 0 by lia. lia.
  - destruct (Z.even q) eqn:Eq.
    + replace (q * w - (q * w + rho)) with (- rho) by lia. split; [lia|]. intros _. exact Eq.
    + replace ((q + 1) * w - (q * w + rho)) with (w - rho) by lia. split; [lia|]. intros _.
      rewrite Z.even_add, Eq. reflexivity.
  - replace (q * w - (q * w + rho)) with (- rho) by lia. split; lia.
  - replace ((q + 1) * w - (q * w + rho)) with (w - rho) by lia. split; lia.
Qed.

(** multiples of [w] other than [a * w], seen from [v] *)
Lemma other_multiple a b w v : 0 < w -> 2 * Z.abs (a * w - v) <= w -> b <> a ->
  Z.abs (a * w - v) < Z.abs (b * w - v) \/
  Z.abs (a * w - v) = Z.abs (b * w - v) /\ 2 * Z.abs (a * w - v) = w.
Proof.
  intros Hw H Hn. assert (w <= Z.abs (b * w - a * w)).
  { replace (b * w - a * w) with ((b - a) * w) by lia. rewrite Z.abs_mul, (Z.abs_eq w) by lia. nia. }
  lia.
Qed.

(** ** Values of binary32 *)

Lemma bounded_facts m e : bounded prec32 emax32 m e = true -> -149 <= e <= 104 /\ (e = dg m + e - 24 \/ e = -149 /\ dg m <= 24).
Proof.
  unfold bounded, canonical_mantissa. rewrite andb_true_iff. intros [H1 H2].
  apply Zeq_is_eq_bool in H1. apply Z.leb_le in H2. rewrite fexp_max in H1.
  change (Zpos (digits2_pos m)) with (dg m) in H1. unfold emax32, prec32 in H2. lia.
Qed.

Lemma bounded_dg m e : bounded prec32 emax32 m e = true -> dg m <= 24.
Proof. intros H. apply bounded_facts in H. lia. Qed.

Lemma bounded_intro m e : -149 <= e <= 104 -> (dg m = 24 \/ e = -149 /\ dg m <= 24) -> bounded prec32 emax32 m e = true.
Proof.
  intros H1 H2. unfold bounded, canonical_mantissa. apply andb_true_iff. split.
  - apply Zeq_is_eq_bool. rewrite fexp_max. change (Zpos (digits2_pos m)) with (dg m). lia.
  - apply Z.leb_le. unfold emax32, prec32. lia.
Qed.

(** the largest value that does not round to infinity, excluded *)
Definition overflow_from : Z := (2 ^ 25 - 1) * 2 ^ 252.

Lemma split_pow a b : 0 <= a -> 0 <= b -> 2 ^ (a + b) = 2 ^ a * 2 ^ b.
Proof. intros. apply Z.pow_add_r; lia. Qed.

Definition near (x : f32) (u z : Z) : Prop :=
  forall y v, is_f32 y -> units y = Some v ->
    v = u \/ Z.abs (u - z) < Z.abs (v - z) \/ Z.abs (u - z) = Z.abs (v - z) /\ even_mantissa x = true.

(** a float is a multiple of [2^t] or small *)
Lemma float_grid y v t : is_f32 y -> units y = Some v -> -149 <= t ->
  (exists b, v = b * 2 ^ (t + 149)) \/ Z.abs v < 2 ^ (t + 23 + 149).
Proof.
  intros V U Ht. destruct y as [s|s| |s m e]; try discriminate; injection U as <-.
  - left. exists 0. lia.
  - unfold is_f32 in V. cbn [valid_binary] in V. pose proof (bounded_dg _ _ V) as Hd. apply bounded_facts in V as [Hb _].
    destruct (Z.le_gt_cases t e) as [H|H].
    + left. exists (cond_Zopp s (Zpos m) * 2 ^ (e - t)). rewrite <- Z.mul_assoc, <- split_pow by lia. f_equal. f_equal. lia.
    + right. rewrite Z.abs_mul. replace (Z.abs (cond_Zopp s (Zpos m))) with (Zpos m) by (destruct s; reflexivity).
      rewrite (Z.abs_eq (2 ^ _)) by (pose proof (pow2_pos (e + 149)); lia).
      pose proof (dg_bounds m) as [_ M]. pose proof (dg_pos m). pose proof (pow2_pos (e + 149)).
      apply Z.lt_le_trans with (2 ^ dg m * 2 ^ (e + 149)); [nia|].
      rewrite <- split_pow by lia. apply Z.pow_le_mono_r; lia.
Qed.

Lemma scale_le x w c : 0 < c -> 2 * x <= w -> 2 * (x * c) <= w * c.
Proof. nia. Qed.
Lemma scale_eq x w c : 0 < c -> 2 * (x * c) = w * c -> 2 * x = w.
Proof. nia. Qed.
Lemma scale_low k q w rho c : 0 < w -> 0 < c -> 0 <= rho -> k <= q -> k * (w * c) <= (q * w + rho) * c.
Proof. intros. rewrite Z.mul_assoc. apply Z.mul_le_mono_nonneg_r; nia. Qed.

Lemma round_pos s p e : -149 <= e -> Zpos p * 2 ^ (e + 149) < overflow_from ->
  exists m e', binary_round prec32 emax32 s p e = S754_finite s m e' /\ bounded prec32 emax32 m e' = true /\
    let z := Zpos p * 2 ^ (e + 149) in let u := Zpos m * 2 ^ (e' + 149) in
    forall y v, is_f32 y -> units y = Some v ->
      v = u \/ Z.abs (u - z) < Z.abs (v - z) \/ Z.abs (u - z) = Z.abs (v - z) /\ Z.even (Zpos m) = true.
Proof.
  intros He HO. set (d := dg p). pose proof (dg_bounds p) as [D1 D2]. pose proof (dg_pos p) as Dp. fold d in D1, D2, Dp.
  assert (Hsz : d + e <= 128).
  { destruct (Z.le_gt_cases (d + e) 128) as [|H]; [assumption|exfalso].
    assert (2 ^ (d - 1) * 2 ^ (e + 149) <= Zpos p * 2 ^ (e + 149)) by (pose proof (pow2_pos (e + 149)); nia).
    rewrite <- split_pow in H0 by lia.
    assert (2 ^ 277 <= 2 ^ (d - 1 + (e + 149))) by (apply Z.pow_le_mono_r; lia).
    assert (overflow_from < 2 ^ 277) by (vm_compute; reflexivity). lia. }
  unfold binary_round. change (Zpos (digits2_pos p)) with d. rewrite fexp_max.
  set (t := Z.max (d + e - 24) (-149)).
  destruct (Z.le_gt_cases t e) as [Ht|Ht].
  - (* no bit is lost *)
    assert (EA : shl_align p e t = (shl (Z.to_nat (e - t)) p, t)).
    { unfold shl_align. destruct (t - e) as [|x|x] eqn:E.
      - replace (e - t) with 0 by lia. cbn. f_equal. lia.
      - lia.
      - rewrite shift_pos_shl. f_equal. f_equal. lia. }
    rewrite EA. set (m := shl (Z.to_nat (e - t)) p).
    assert (Hdm : dg m = d + (e - t)) by (unfold m; rewrite dg_shl; fold d; lia).
    assert (HF : fexp prec32 emax32 (Zdigits2 (Zpos m) + t) = t).
    { rewrite fexp_max. change (Zdigits2 (Zpos m)) with (dg m). rewrite Hdm. unfold t. lia. }
    exists m, t. split; [|split].
    + unfold binary_round_aux. rewrite shr_fexp_none by lia. cbn [shr_m loc_of_shr_record round_nearest_even].
      rewrite shr_fexp_none by lia. cbn [shr_m].
      replace (t <=? emax32 - prec32) with true; [reflexivity|]. symmetry. apply Z.leb_le. unfold emax32, prec32, t. lia.
    + apply bounded_intro; unfold t in *; lia.
    + cbn zeta. intros y v _ _. replace (Zpos m * 2 ^ (t + 149)) with (Zpos p * 2 ^ (e + 149)).
      * destruct (Z.eq_dec v (Zpos p * 2 ^ (e + 149))); [left; assumption|right; left; lia].
      * unfold m. rewrite shl_val, <- Z.mul_assoc, <- split_pow by (unfold t; lia). f_equal. f_equal. lia.
  - (* rounding *)
    assert (Et : t = d + e - 24) by (unfold t in *; lia).
    set (j := Z.to_nat (t - e)). assert (Ej : Z.of_nat j = t - e) by (unfold j; lia).
    assert (EA : shl_align p e t = (p, e)).
    { unfold shl_align. destruct (t - e) as [|x|x] eqn:E; [reflexivity|reflexivity|lia]. }
    rewrite EA. unfold binary_round_aux. rewrite (shr_fexp_some (Zpos p) e j) by
      (try lia; rewrite fexp_max; change (Zdigits2 (Zpos p)) with d; lia).
    destruct (shr_iter j (Zpos p) ltac:(lia)) as (rho & E & B & Hq & L). cbn zeta in *.
    set (r := Nat.iter j shr_1 (Build_shr_record (Zpos p) false false)) in *.
    set (q := shr_m r) in *. set (w := 2 ^ Z.of_nat j) in *. assert (Hw : 0 < w) by (apply pow2_pos; lia).
    set (m1 := round_nearest_even q (loc_of_shr_record r)).
    destruct (even_near q m1 w rho (loc_of_shr_record r) Hw B L eq_refl) as [N1 N2].
    replace (e + Z.of_nat j) with t by lia.
    (* q has 24 digits *)
    assert (Q1 : 2 ^ 23 <= q).
    { assert (2 ^ (d - 1) = 2 ^ 23 * w) by (unfold w; rewrite <- split_pow by lia; f_equal; lia). nia. }
    assert (Q2 : q < 2 ^ 24).
    { assert (2 ^ d = 2 ^ 24 * w) by (unfold w; rewrite <- split_pow by lia; f_equal; lia). nia. }
    assert (M1 : q <= m1 <= q + 1).
    { unfold m1. destruct (loc_of_shr_record r) as [|[| |]]; cbn [round_nearest_even]; try lia. destruct (Z.even q); lia. }
    set (c := 2 ^ (e + 149)) in *. assert (Hc : 0 < c) by (apply pow2_pos; lia).
    assert (EW : 2 ^ (t + 149) = w * c).
    { unfold w, c. rewrite <- split_pow by lia. f_equal. lia. }
    assert (LE : m1 * 2 ^ (t + 149) < 2 ^ 277).
    { destruct (Z.eq_dec t 104) as [T|T].
      - rewrite T. change (104 + 149) with 253. assert (m1 < 2 ^ 24); [|change (2 ^ 277) with (2 ^ 24 * 2 ^ 253); nia].
        assert (HP : 2 * Zpos p < (2 ^ 25 - 1) * w).
        { assert (w * c = 2 * 2 ^ 252) by (rewrite <- EW, T; reflexivity).
          unfold overflow_from in HO. nia. }
        destruct (Z.eq_dec m1 (2 ^ 24)) as [->|]; [exfalso|lia]. rewrite <- E in N1. lia.
      - assert (t + 149 <= 252) by lia. assert (2 ^ (t + 149) <= 2 ^ 252) by (apply Z.pow_le_mono_r; lia).
        change (2 ^ 277) with (2 ^ 25 * 2 ^ 252). nia. }
    assert (R : exists m e', 
       (let '(mrs'', e'') := shr_fexp prec32 emax32 m1 t loc_Exact in
        match shr_m mrs'' with
        | 0 => S754_zero s
        | Zpos m => if e'' <=? emax32 - prec32 then S754_finite s m e'' else S754_infinity s
        | Zneg _ => S754_nan
        end) = S754_finite s m e' /\ bounded prec32 emax32 m e' = true /\
       Zpos m * 2 ^ (e' + 149) = m1 * 2 ^ (t + 149) /\ (Z.even m1 = true -> Z.even (Zpos m) = true)).
    { destruct (Z.eq_dec m1 (2 ^ 24)) as [Em|Em].
      - exists (2 ^ 23)%positive, (t + 1). rewrite Em.
        rewrite (shr_fexp_some (2 ^ 24) t 1); [|lia|rewrite fexp_max; change (Zdigits2 (2 ^ 24)) with 25; lia].
        cbn [Nat.iter]. change (shr_m (shr_1 {| shr_m := 2 ^ 24; shr_r := false; shr_s := false |})) with (Zpos (2 ^ 23)).
        assert (T : t + 1 <= 104).
        { assert (2 ^ (24 + (t + 149)) < 2 ^ 277) by (rewrite split_pow, <- Em by lia; exact LE).
          apply Z.pow_lt_mono_r_iff in H; lia. }
        replace (t + Z.of_nat 1 <=? emax32 - prec32) with true by (symmetry; apply Z.leb_le; unfold emax32, prec32; lia).
        split; [reflexivity|]. split; [apply bounded_intro; [lia|left; reflexivity]|]. split; [|intros _; reflexivity].
        replace (t + 1 + 149) with (1 + (t + 149)) by lia. rewrite split_pow by lia. change (Zpos (2 ^ 23)) with (2 ^ 23). lia.
      - destruct m1 as [|m|m] eqn:Emm; [lia| |lia]. exists m, t.
        assert (Hdm : dg m = 24) by (apply dg_unique; lia).
        rewrite shr_fexp_none by (try lia; rewrite fexp_max; change (Zdigits2 (Zpos m)) with (dg m); lia).
        cbn [shr_m]. assert (T : t <= 104) by lia.
        replace (t <=? emax32 - prec32) with true by (symmetry; apply Z.leb_le; unfold emax32, prec32; lia).
        split; [reflexivity|]. split; [apply bounded_intro; [lia|left; exact Hdm]|]. split; [reflexivity|tauto]. }
    destruct R as (m & e' & R1 & R2 & R3 & R4). exists m, e'. split; [exact R1|]. split; [exact R2|].
    cbn zeta. rewrite R3. intros y v Vy Uy.
    assert (Z0 : Zpos p * c = (q * w + rho) * c) by (rewrite <- E; reflexivity).
    assert (Hwc : 0 < w * c) by (apply Z.mul_pos_pos; assumption).
    assert (A1 : 2 * Z.abs (m1 * (w * c) - Zpos p * c) <= w * c).
    { rewrite Z0. replace (m1 * (w * c) - (q * w + rho) * c) with ((m1 * w - (q * w + rho)) * c) by ring.
      rewrite Z.abs_mul, (Z.abs_eq c) by lia. apply scale_le; assumption. }
    assert (A2 : 2 * Z.abs (m1 * (w * c) - Zpos p * c) = w * c -> Z.even m1 = true).
    { rewrite Z0. replace (m1 * (w * c) - (q * w + rho) * c) with ((m1 * w - (q * w + rho)) * c) by ring.
      rewrite Z.abs_mul, (Z.abs_eq c) by lia. intros H. apply N2, (scale_eq _ _ c); assumption. }
    rewrite EW. destruct (float_grid y v t Vy Uy ltac:(lia)) as [(b & ->)|Hv].
    + rewrite EW. destruct (Z.eq_dec b m1) as [->|Hb]; [left; reflexivity|right].
      destruct (other_multiple m1 b (w * c) (Zpos p * c) Hwc A1 Hb) as [?|[H1 H2]]; [left; assumption|right].
      split; [exact H1|]. apply R4, A2, H2.
    + right. left. assert (EB : 2 ^ (t + 23 + 149) = 2 ^ 23 * (w * c)).
      { replace (t + 23 + 149) with (23 + (t + 149)) by lia. rewrite split_pow, EW by lia. reflexivity. }
      rewrite EB in Hv. assert (HL : 2 ^ 23 * (w * c) <= Zpos p * c) by (rewrite Z0; apply scale_low; lia).
      set (wc := w * c) in *. set (z := Zpos p * c) in *. clearbody wc z.
      destruct (Z.eq_dec m1 (2 ^ 23)) as [Em|Em].
      * rewrite Em in *. clear - Hv HL. lia.
      * pose proof (other_multiple m1 (2 ^ 23) wc z Hwc A1 ltac:(congruence)) as HM.
        generalize dependent (m1 * wc). generalize dependent (2 ^ 23 * wc). clear. lia.
Qed.

(** ** Sums and differences *)

Lemma is_f32_opp y : is_f32 y -> is_f32 (SFopp y).
Proof. destruct y; exact (fun H => H). Qed.

Lemma units_opp y v : units y = Some v -> units (SFopp y) = Some (- v).
Proof.
  destruct y as [s|s| |s m e]; cbn [units SFopp]; try discriminate; intros [= <-]; [reflexivity|].
  f_equal. rewrite <- Z.mul_opp_l. destruct s; reflexivity.
Qed.

Lemma rounds_exact x u : is_f32 x -> units x = Some u -> rounds_to x u.
Proof.
  intros V U. split; [exact V|]. exists u. split; [exact U|]. intros y v _ _. lia.
Qed.

Lemma normalize_rounds z e : -149 <= e -> Z.abs z * 2 ^ (e + 149) < overflow_from ->
  rounds_to (binary_normalize prec32 emax32 z e false) (z * 2 ^ (e + 149)).
Proof.
  intros He HO. destruct z as [|p|p]; cbn [binary_normalize].
  - apply rounds_exact; reflexivity.
  - destruct (round_pos false p e He HO) as (m & e' & -> & B & N). split; [exact B|].
    exists (Zpos m * 2 ^ (e' + 149)). split; [reflexivity|]. exact N.
  - destruct (round_pos true p e He HO) as (m & e' & -> & B & N). split; [exact B|].
    exists (Zneg m * 2 ^ (e' + 149)). split; [reflexivity|]. intros y v Vy Uy.
    specialize (N (SFopp y) (- v) (is_f32_opp y Vy) (units_opp y v Uy)). cbn zeta in N. cbn [even_mantissa].
    change (Zneg p) with (- Zpos p). change (Zneg m) with (- Zpos m). rewrite !Z.mul_opp_l.
    generalize dependent (Zpos m * 2 ^ (e' + 149)). generalize (Zpos p * 2 ^ (e + 149)). intros a b H.
    destruct H as [H|[H|[H1 H2]]]; [left; lia|right; left; lia|right; right; split; [lia|exact H2]].
Qed.

Lemma align_val m e t : t <= e -> Zpos (fst (shl_align m e t)) = Zpos m * 2 ^ (e - t).
Proof.
  intros H. unfold shl_align. destruct (t - e) as [|x|x] eqn:E; cbn [fst].
  - replace (e - t) with 0 by lia. lia.
  - lia.
  - rewrite shift_pos_shl, shl_val. f_equal. f_equal. lia.
Qed.

Lemma finite_units s m e t : -149 <= t <= e ->
  cond_Zopp s (Zpos m) * 2 ^ (e + 149) = cond_Zopp s (Zpos (fst (shl_align m e t))) * 2 ^ (t + 149).
Proof.
  intros H. rewrite align_val, cond_mul, <- Z.mul_assoc, <- split_pow by lia. f_equal. f_equal. lia.
Qed.

Lemma add_rounds x y a b : is_f32 x -> is_f32 y -> units x = Some a -> units y = Some b ->
  Z.abs (a + b) < overflow_from -> rounds_to (f32_add x y) (a + b).
Proof.
  intros Vx Vy Ux Uy HO. destruct x as [s|s| |s m e]; try discriminate; destruct y as [s'|s'| |s' m' e']; try discriminate.
  - injection Ux as <-. injection Uy as <-. cbn [f32_add SFadd]. apply rounds_exact; [|]; destruct s, s'; reflexivity.
  - injection Ux as <-. rewrite Z.add_0_l. cbn [f32_add SFadd]. apply rounds_exact; assumption.
  - injection Uy as <-. rewrite Z.add_0_r. cbn [f32_add SFadd]. apply rounds_exact; assumption.
  - injection Ux as <-. injection Uy as <-. unfold is_f32 in Vx, Vy. cbn [valid_binary] in Vx, Vy.
    apply bounded_facts in Vx as [Vx _], Vy as [Vy _]. unfold f32_add, SFadd. set (t := Z.min e e') in *.
    rewrite (finite_units s m e t), (finite_units s' m' e' t), <- Z.mul_add_distr_r in * by lia.
    apply normalize_rounds; [lia|]. rewrite Z.abs_mul, (Z.abs_eq (2 ^ _)) in HO by (pose proof (pow2_pos (t + 149)); lia). exact HO.
Qed.

Lemma sub_rounds x y a b : is_f32 x -> is_f32 y -> units x = Some a -> units y = Some b ->
  Z.abs (a - b) < overflow_from -> rounds_to (f32_sub x y) (a - b).
Proof.
  intros Vx Vy Ux Uy HO. destruct x as [s|s| |s m e]; try discriminate; destruct y as [s'|s'| |s' m' e']; try discriminate.
  - injection Ux as <-. injection Uy as <-. cbn [f32_sub SFsub]. apply rounds_exact; [|]; destruct s, s'; reflexivity.
  - injection Ux as <-. rewrite Z.sub_0_l. cbn [f32_sub SFsub]. apply rounds_exact; [exact Vy|]. apply (units_opp _ _ Uy).
  - injection Uy as <-. rewrite Z.sub_0_r. cbn [f32_sub SFsub]. apply rounds_exact; assumption.
  - injection Ux as <-. injection Uy as <-. unfold is_f32 in Vx, Vy. cbn [valid_binary] in Vx, Vy.
    apply bounded_facts in Vx as [Vx _], Vy as [Vy _]. unfold f32_sub, SFsub. set (t := Z.min e e') in *.
    rewrite (finite_units s m e t), (finite_units s' m' e' t), <- Z.mul_sub_distr_r in * by lia.
    apply normalize_rounds; [lia|]. rewrite Z.abs_mul, (Z.abs_eq (2 ^ _)) in HO by (pose proof (pow2_pos (t + 149)); lia). exact HO.
Qed.

(** ** What follows from correct rounding *)

Lemma rounds_self x z y : rounds_to x z -> is_f32 y -> units y = Some z -> units x = Some z.
Proof.
  intros (V & u & U & N) Vy Uy. rewrite U. f_equal. specialize (N y z Vy Uy). lia.
Qed.

Lemma rounds_le x z u y v : rounds_to x z -> units x = Some u -> is_f32 y -> units y = Some v -> z <= v -> u <= v.
Proof.
  intros (V & u' & U & N) U' Vy Uy H. rewrite U in U'. injection U' as <-. specialize (N y v Vy Uy). lia.
Qed.

Lemma rounds_ge x z u y v : rounds_to x z -> units x = Some u -> is_f32 y -> units y = Some v -> v <= z -> v <= u.
Proof.
  intros (V & u' & U & N) U' Vy Uy H. rewrite U in U'. injection U' as <-. specialize (N y v Vy Uy). lia.
Qed.

(** ** Comparison *)

Lemma bounded_lt m e m' e' : bounded prec32 emax32 m e = true -> bounded prec32 emax32 m' e' = true -> e < e' ->
  Zpos m * 2 ^ (e + 149) < Zpos m' * 2 ^ (e' + 149).
Proof.
  intros H H' L. pose proof (bounded_dg _ _ H). apply bounded_facts in H as [H _], H' as [H' C].
  pose proof (dg_bounds m) as [_ M]. pose proof (dg_bounds m') as [M' _]. assert (D : dg m' = 24) by lia. rewrite D in M'.
  pose proof (pow2_pos (e + 149)). pose proof (pow2_pos (e' + 149)).
  apply Z.lt_le_trans with (2 ^ 24 * 2 ^ (e + 149)).
  - apply Z.mul_lt_mono_pos_r; [lia|]. eapply Z.lt_le_trans; [exact M|]. apply Z.pow_le_mono_r; lia.
  - rewrite <- split_pow by lia. transitivity (2 ^ (24 - 1) * 2 ^ (e' + 149)); [|apply Z.mul_le_mono_nonneg_r; lia].
    rewrite <- split_pow by lia. apply Z.pow_le_mono_r; lia.
Qed.

Lemma bounded_compare m e m' e' : bounded prec32 emax32 m e = true -> bounded prec32 emax32 m' e' = true ->
  match e ?= e' with Lt => Lt | Gt => Gt | Eq => Pcompare m m' Eq end = (Zpos m * 2 ^ (e + 149) ?= Zpos m' * 2 ^ (e' + 149)).
Proof.
  intros H H'. symmetry. destruct (Z.compare_spec e e') as [<-|L|L].
  - pose proof (bounded_facts _ _ H) as [B _]. pose proof (pow2_pos (e + 149) ltac:(lia)).
    rewrite <- Zmult_compare_compat_r by lia. reflexivity.
  - apply Z.compare_lt_iff, bounded_lt; assumption.
  - apply Z.compare_gt_iff, bounded_lt; assumption.
Qed.

Lemma compare_units x y a b : is_f32 x -> is_f32 y -> units x = Some a -> units y = Some b -> SFcompare x y = Some (a ?= b).
Proof.
  intros Vx Vy Ux Uy.
  assert (S0 : forall s m e, bounded prec32 emax32 m e = true ->
    (cond_Zopp s (Zpos m) * 2 ^ (e + 149) ?= 0) = (if s then Lt else Gt) /\ (0 ?= cond_Zopp s (Zpos m) * 2 ^ (e + 149)) = (if s then Gt else Lt)).
  { intros s m e B. apply bounded_facts in B as [B _]. pose proof (pow2_pos (e + 149) ltac:(lia)).
    destruct s; cbn [cond_Zopp]; split; first [apply Z.compare_lt_iff|apply Z.compare_gt_iff]; nia. }
  destruct x as [s|s| |s m e]; try discriminate; destruct y as [s'|s'| |s' m' e']; try discriminate;
    injection Ux as <-; injection Uy as <-; cbn [SFcompare].
  - reflexivity.
  - rewrite (proj2 (S0 s' m' e' Vy)). destruct s'; reflexivity.
  - rewrite (proj1 (S0 s m e Vx)). destruct s; reflexivity.
  - destruct s, s'; cbn [cond_Zopp].
    + change (Zneg m) with (- Zpos m). change (Zneg m') with (- Zpos m'). rewrite !Z.mul_opp_l, Z.compare_opp.
      f_equal. rewrite (Z.compare_antisym (Zpos m * _) (Zpos m' * _)), <- (bounded_compare m e m' e' Vx Vy). destruct (e ?= e'); reflexivity.
    + f_equal. symmetry. apply Z.compare_lt_iff. unfold is_f32 in Vx, Vy. cbn [valid_binary] in Vx, Vy. apply bounded_facts in Vx as [Vx _], Vy as [Vy _].
      pose proof (pow2_pos (e + 149) ltac:(lia)). pose proof (pow2_pos (e' + 149) ltac:(lia)). nia.
    + f_equal. symmetry. apply Z.compare_gt_iff. unfold is_f32 in Vx, Vy. cbn [valid_binary] in Vx, Vy. apply bounded_facts in Vx as [Vx _], Vy as [Vy _].
      pose proof (pow2_pos (e + 149) ltac:(lia)). pose proof (pow2_pos (e' + 149) ltac:(lia)). nia.
    + f_equal. apply bounded_compare; assumption.
Qed.

Lemma lt_units x y a b : is_f32 x -> is_f32 y -> units x = Some a -> units y = Some b -> f32_lt x y = (a <? b).
Proof. intros. unfold f32_lt, SFltb. rewrite (compare_units x y a b) by assumption. reflexivity. Qed.

Lemma abs_units x a : is_f32 x -> units x = Some a -> is_f32 (f32_abs x) /\ units (f32_abs x) = Some (Z.abs a).
Proof.
  intros V U. destruct x as [s|s| |s m e]; try discriminate; injection U as <-; (split; [exact V|]); cbn [f32_abs SFabs units]; [reflexivity|].
  f_equal. rewrite Z.abs_mul. unfold is_f32 in V. cbn [valid_binary] in V. apply bounded_facts in V as [V _].
  rewrite (Z.abs_eq (2 ^ _)) by (pose proof (pow2_pos (e + 149)); lia). destruct s; reflexivity.
Qed.

(** ** Some representable values *)

Lemma representable c k : Z.abs c < 2 ^ 24 -> 100 <= k <= 200 -> exists y, is_f32 y /\ units y = Some (c * 2 ^ k).
Proof.
  intros Hc Hk. assert (H : forall s p, Zpos p < 2 ^ 24 -> exists y, is_f32 y /\ units y = Some (cond_Zopp s (Zpos p) * 2 ^ k)).
  { intros s p Hp. pose proof (dg_le p 24 ltac:(lia) Hp) as D. pose proof (dg_pos p).
    exists (S754_finite s (shl (Z.to_nat (24 - dg p)) p) (k - 149 + dg p - 24)). split.
    - unfold is_f32. cbn [valid_binary]. apply bounded_intro; [lia|]. left. rewrite dg_shl. lia.
    - cbn [units]. f_equal. rewrite shl_val, cond_mul, <- Z.mul_assoc, <- split_pow by lia. f_equal. f_equal. lia. }
  destruct c as [|p|p].
  - exists (S754_zero false). split; reflexivity.
  - apply (H false). exact Hc.
  - apply (H true). exact Hc.
Qed.

Lemma halves_units x z : is_f32 x -> halves x z -> units x = Some (z * 2 ^ 148).
Proof.
  intros V H. destruct x as [s|s| |s m e]; cbn [halves] in H; try contradiction.
  - subst z. reflexivity.
  - unfold is_f32 in V. cbn [valid_binary] in V. apply bounded_facts in V as [V _]. cbn [units]. f_equal.
    set (k := Z.min e (-1)) in *. replace (e + 149) with (e - k + (k + 149)) by lia. rewrite split_pow by lia.
    rewrite Z.mul_assoc, H, <- Z.mul_assoc, <- split_pow by lia. f_equal. f_equal. lia.
Qed.
