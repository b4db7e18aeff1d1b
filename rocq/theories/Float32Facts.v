(** Exact binary32 arithmetic on multiples of one half, without axioms. *)
From Verif Require Import Float32 ScoreSpec.
From Coq Require Import Lia ZArith Zpower SpecFloat.
Open Scope Z_scope.

(** ** Shifts *)

Definition shl (k : nat) (p : positive) : positive := Nat.iter k xO p.

Lemma shl_val k p : Zpos (shl k p) = Zpos p * 2 ^ Z.of_nat k.
Proof.
  induction k as [|k IH]; [cbn; lia|]. change (shl (S k) p) with (xO (shl k p)).
  rewrite Pos2Z.inj_xO, IH, Nat2Z.inj_succ, Z.pow_succ_r by lia. lia.
Qed.

Lemma shl_add j k p : shl (j + k) p = shl j (shl k p).
Proof. unfold shl. apply Nat.iter_add. Qed.

Lemma shl_S k p : shl (S k) p = shl k (xO p).
Proof. unfold shl. apply Nat.iter_succ_r. Qed.

Lemma shift_pos_shl d m : shift_pos d m = shl (Pos.to_nat d) m.
Proof. unfold shift_pos, shl. apply Pos2Nat.inj_iter. Qed.

Lemma iter_pos_nat {A} (f : A -> A) n : forall x, SpecFloat.iter_pos f n x = Nat.iter (Pos.to_nat n) f x.
Proof.
  induction n as [n IH|n IH|]; intros x; cbn [SpecFloat.iter_pos].
  - rewrite !IH, Pos2Nat.inj_xI, <- Nat.iter_succ_r, <- Nat.iter_add. f_equal. lia.
  - rewrite !IH, Pos2Nat.inj_xO, <- Nat.iter_add. f_equal. lia.
  - reflexivity.
Qed.

Lemma shr_exact j q :
  Nat.iter j shr_1 (Build_shr_record (Zpos (shl j q)) false false) = Build_shr_record (Zpos q) false false.
Proof.
  induction j as [|j IH]; [reflexivity|]. rewrite Nat.iter_succ_r. change (shl (S j) q) with (xO (shl j q)).
  cbn [shr_1 orb]. exact IH.
Qed.

(** ** Number of digits *)

Definition dg (p : positive) : Z := Zpos (digits2_pos p).

Lemma dg_size p : dg p = Zpos (Pos.size p).
Proof. unfold dg. f_equal; induction p as [p IH|p IH|]; cbn; rewrite ?IH; reflexivity. Qed.

Lemma dg_pos p : 1 <= dg p.
Proof. unfold dg. lia. Qed.

Lemma dg_xO p : dg (xO p) = dg p + 1.
Proof. unfold dg. cbn [digits2_pos]. lia. Qed.

Lemma dg_shl k p : dg (shl k p) = dg p + Z.of_nat k.
Proof.
  induction k as [|k IH]; [cbn; lia|]. change (shl (S k) p) with (xO (shl k p)). rewrite dg_xO, IH. lia.
Qed.

Lemma dg_bounds p : 2 ^ (dg p - 1) <= Zpos p < 2 ^ dg p.
Proof.
  rewrite dg_size. pose proof (Pos.size_gt p) as H1. pose proof (Pos.size_le p) as H2. split.
  - apply Pos2Z.pos_le_pos in H2. rewrite Pos2Z.inj_pow in H2. rewrite (Pos2Z.inj_xO p) in H2.
    replace (Zpos (Pos.size p)) with (Z.succ (Zpos (Pos.size p) - 1)) in H2 by lia.
    rewrite Z.pow_succ_r in H2 by lia. lia.
  - apply Pos2Z.pos_lt_pos in H1. rewrite Pos2Z.inj_pow in H1. exact H1.
Qed.

Lemma dg_unique p d : 0 <= d -> 2 ^ (d - 1) <= Zpos p < 2 ^ d -> dg p = d.
Proof.
  intros Hd [H1 H2]. pose proof (dg_bounds p) as [H3 H4]. pose proof (dg_pos p).
  assert (d - 1 < dg p) by (apply (Z.pow_lt_mono_r_iff 2); lia).
  assert (dg p - 1 < d) by (apply (Z.pow_lt_mono_r_iff 2); lia). lia.
Qed.

Lemma dg_le p d : 0 <= d -> Zpos p < 2 ^ d -> dg p <= d.
Proof.
  intros Hd H. pose proof (dg_bounds p) as [H1 _]. pose proof (dg_pos p).
  assert (dg p - 1 < d) by (apply (Z.pow_lt_mono_r_iff 2); lia). lia.
Qed.

(** ** Rounding exact values *)

Lemma fexp32 e : -149 <= e - 24 -> fexp prec32 emax32 e = e - 24.
Proof. unfold fexp, emin, prec32, emax32. lia. Qed.

Lemma shr_fexp_exact q j e : dg q = 24 -> -149 <= e + Z.of_nat j ->
  shr_fexp prec32 emax32 (Zpos (shl j q)) e loc_Exact =
  (Build_shr_record (Zpos q) false false, e + Z.of_nat j).
Proof.
  intros Hq He. unfold shr_fexp. cbn [shr_record_of_loc Zdigits2]. change (Zpos (digits2_pos (shl j q))) with (dg (shl j q)).
  rewrite dg_shl, Hq, fexp32 by lia. unfold shr.
  replace (24 + Z.of_nat j + e - 24 - e) with (Z.of_nat j) by lia.
  destruct (Z.of_nat j) as [|x|x] eqn:Ej; [|rewrite iter_pos_nat|lia].
  - assert (j = 0%nat) by lia. subst j. cbn. f_equal. lia.
  - replace (Pos.to_nat x) with j by lia. rewrite shr_exact. reflexivity.
Qed.

Lemma round_aux_exact s q j e : dg q = 24 -> -149 <= e + Z.of_nat j <= 104 ->
  binary_round_aux prec32 emax32 s (Zpos (shl j q)) e loc_Exact = S754_finite s q (e + Z.of_nat j).
Proof.
  intros Hq He. unfold binary_round_aux. rewrite shr_fexp_exact by lia. cbn [shr_m loc_of_shr_record round_nearest_even].
  pose proof (shr_fexp_exact q 0 (e + Z.of_nat j) Hq) as H. change (shl 0 q) with q in H.
  change (Z.of_nat 0) with 0 in H. rewrite H by lia. cbn [shr_m].
  replace (e + Z.of_nat j + 0) with (e + Z.of_nat j) by lia.
  replace (e + Z.of_nat j <=? emax32 - prec32) with true; [reflexivity|].
  symmetry. apply Z.leb_le. unfold emax32, prec32. lia.
Qed.

Lemma round_exact s p k e : dg p <= 24 -> -149 <= e + dg p - 24 <= 104 ->
  binary_round prec32 emax32 s (shl k p) (e - Z.of_nat k) =
  S754_finite s (shl (Z.to_nat (24 - dg p)) p) (e + dg p - 24).
Proof.
  intros Hd He. pose proof (dg_pos p) as Hp. unfold binary_round.
  change (Zpos (digits2_pos (shl k p))) with (dg (shl k p)). rewrite dg_shl, fexp32 by lia.
  set (q := shl (Z.to_nat (24 - dg p)) p).
  assert (Hq : dg q = 24) by (unfold q; rewrite dg_shl; lia).
  unfold shl_align.
  destruct (dg p + Z.of_nat k + (e - Z.of_nat k) - 24 - (e - Z.of_nat k)) as [|x|x] eqn:Ex.
  - replace (shl k p) with (shl 0 q); [|unfold q; rewrite <- shl_add; f_equal; lia].
    rewrite round_aux_exact by lia. f_equal. lia.
  - replace (shl k p) with (shl (Pos.to_nat x) q); [|unfold q; rewrite <- shl_add; f_equal; lia].
    rewrite round_aux_exact by lia. f_equal. lia.
  - rewrite shift_pos_shl, <- shl_add. replace (shl (Pos.to_nat x + k) p) with (shl 0 q); [|change (shl 0 q) with q; unfold q; f_equal; lia].
    rewrite round_aux_exact by lia. f_equal. lia.
Qed.

(** the float of value [z / 2] *)
Definition canon (z : Z) : f32 :=
  match z with
  | Z0 => S754_zero false
  | Zpos p => S754_finite false (shl (Z.to_nat (24 - dg p)) p) (dg p - 25)
  | Zneg p => S754_finite true (shl (Z.to_nat (24 - dg p)) p) (dg p - 25)
  end.

Definition small (z : Z) : Prop := Z.abs z < 2 ^ 24.

Lemma small_dg p : small (Zpos p) -> dg p <= 24.
Proof. intros H. apply dg_le; [lia|exact H]. Qed.

Lemma normalize_canon z k : small z ->
  binary_normalize prec32 emax32 (z * 2 ^ Z.of_nat k) (-1 - Z.of_nat k) false = canon z.
Proof.
  intros Hz. destruct z as [|p|p].
  - reflexivity.
  - rewrite <- shl_val. cbn [binary_normalize]. pose proof (small_dg p Hz). pose proof (dg_pos p).
    rewrite round_exact by lia. unfold canon. f_equal. lia.
  - replace (Zneg p * 2 ^ Z.of_nat k) with (Zneg (shl k p)).
    2:{ change (Zneg (shl k p)) with (- Zpos (shl k p)). rewrite shl_val. change (Zneg p) with (- Zpos p). lia. }
    cbn [binary_normalize]. pose proof (small_dg p Hz). pose proof (dg_pos p).
    rewrite round_exact by lia. unfold canon. f_equal. lia.
Qed.

Lemma make_half z : small z -> f32_make z (-1) = canon z.
Proof.
  intros Hz. unfold f32_make. pose proof (normalize_canon z 0 Hz) as H. cbn in H. rewrite Z.mul_1_r in H. exact H.
Qed.

Lemma make_whole z : small (2 * z) -> f32_make z 0 = canon (2 * z).
Proof.
  intros Hz. unfold f32_make. destruct z as [|p|p]; [reflexivity| |].
  - change (2 * Zpos p) with (Zpos (xO p)) in *. cbn [binary_normalize].
    pose proof (small_dg _ Hz) as Hd. rewrite dg_xO in Hd. pose proof (dg_pos p) as Hp1.
    pose proof (round_exact false p 0 0) as H. change (shl 0 p) with p in H. change (0 - Z.of_nat 0) with 0 in H.
    rewrite H by lia. unfold canon. rewrite dg_xO. f_equal; [|lia].
    replace (Z.to_nat (24 - dg p)) with (S (Z.to_nat (24 - (dg p + 1)))) by lia. apply shl_S.
  - change (2 * Zneg p) with (Zneg (xO p)) in *. cbn [binary_normalize].
    pose proof (small_dg (xO p) Hz) as Hd. rewrite dg_xO in Hd. pose proof (dg_pos p) as Hp1.
    pose proof (round_exact true p 0 0) as H. change (shl 0 p) with p in H. change (0 - Z.of_nat 0) with 0 in H.
    rewrite H by lia. unfold canon. rewrite dg_xO. f_equal; [|lia].
    replace (Z.to_nat (24 - dg p)) with (S (Z.to_nat (24 - (dg p + 1)))) by lia. apply shl_S.
Qed.

(** [x] is the float of value [z / 2], of either sign if it is zero *)
Definition isC (x : f32) (z : Z) : Prop := small z /\ (x = canon z \/ z = 0 /\ x = S754_zero true).

Lemma canon_isC z : small z -> isC (canon z) z.
Proof. intros H. split; [exact H|left; reflexivity]. Qed.

Lemma align_canon p q : dg p <= 24 ->
  dg q <= dg p ->
  shl_align (shl (Z.to_nat (24 - dg p)) p) (dg p - 25) (dg q - 25) = (shl (Z.to_nat (24 - dg q)) p, dg q - 25).
Proof.
  intros Hp H. pose proof (dg_pos q). unfold shl_align. destruct (dg q - 25 - (dg p - 25)) as [|x|x] eqn:Ex.
  - replace (dg p) with (dg q) by lia. reflexivity.
  - lia.
  - rewrite shift_pos_shl, <- shl_add. do 2 f_equal. lia.
Qed.

Lemma add_core (sp sq : bool) p q : dg p <= 24 -> dg q <= 24 ->
  let ex := dg p - 25 in let ey := dg q - 25 in let ez := Z.min ex ey in
  exists k : nat,
    ez = -1 - Z.of_nat k /\
    Zpos (fst (shl_align (shl (Z.to_nat (24 - dg p)) p) ex ez)) = Zpos p * 2 ^ Z.of_nat k /\
    Zpos (fst (shl_align (shl (Z.to_nat (24 - dg q)) q) ey ez)) = Zpos q * 2 ^ Z.of_nat k.
Proof.
  intros Hp Hq ex ey ez. pose proof (dg_pos p). pose proof (dg_pos q).
  destruct (Z.le_gt_cases (dg p) (dg q)) as [H1|H1].
  - exists (Z.to_nat (24 - dg p)). replace ez with (dg p - 25) by (unfold ez, ex, ey; lia). split; [lia|].
    unfold ex, ey. rewrite !align_canon by lia. cbn [fst]. rewrite !shl_val. split; reflexivity.
  - exists (Z.to_nat (24 - dg q)). replace ez with (dg q - 25) by (unfold ez, ex, ey; lia). split; [lia|].
    unfold ex, ey. rewrite !align_canon by lia. cbn [fst]. rewrite !shl_val. split; reflexivity.
Qed.

Lemma canon_form z : z <> 0 -> small z -> exists s p,
  dg p <= 24 /\ z = cond_Zopp s (Zpos p) /\ canon z = S754_finite s (shl (Z.to_nat (24 - dg p)) p) (dg p - 25).
Proof.
  intros Hz Hs. destruct z as [|p|p]; [congruence| |].
  - exists false, p. split; [apply small_dg, Hs|]. split; reflexivity.
  - exists true, p. split; [apply small_dg; exact Hs|]. split; reflexivity.
Qed.

Lemma cond_mul s x y : cond_Zopp s (x * y) = cond_Zopp s x * y.
Proof. destruct s; cbn [cond_Zopp]; lia. Qed.

Lemma add_canon a b : small a -> small b -> small (a + b) -> f32_add (canon a) (canon b) = canon (a + b).
Proof.
  intros Ha Hb Hab. destruct (Z.eq_dec a 0) as [->|Na].
  { rewrite Z.add_0_l. destruct b; reflexivity. }
  destruct (Z.eq_dec b 0) as [->|Nb].
  { rewrite Z.add_0_r. destruct a; [congruence|reflexivity..]. }
  destruct (canon_form a Na Ha) as (sp & p & Hp & Ea & ->). destruct (canon_form b Nb Hb) as (sq & q & Hq & Eb & ->).
  unfold f32_add, SFadd. destruct (add_core sp sq p q Hp Hq) as (k & Ek & E1 & E2).
  rewrite E1, E2, !cond_mul, <- Ea, <- Eb, <- Z.mul_add_distr_r, Ek. apply normalize_canon, Hab.
Qed.

Lemma sub_canon a b : small a -> small b -> small (a - b) -> f32_sub (canon a) (canon b) = canon (a - b).
Proof.
  intros Ha Hb Hab. destruct (Z.eq_dec b 0) as [->|Nb].
  { rewrite Z.sub_0_r. destruct a; reflexivity. }
  destruct (Z.eq_dec a 0) as [->|Na].
  { destruct b; [congruence|reflexivity..]. }
  destruct (canon_form a Na Ha) as (sp & p & Hp & Ea & ->). destruct (canon_form b Nb Hb) as (sq & q & Hq & Eb & ->).
  unfold f32_sub, SFsub. destruct (add_core sp sq p q Hp Hq) as (k & Ek & E1 & E2).
  rewrite E1, E2, !cond_mul, <- Ea, <- Eb, <- Z.mul_sub_distr_r, Ek. apply normalize_canon, Hab.
Qed.

Lemma canon_zero z : canon z = S754_zero false -> z = 0.
Proof. destruct z; [reflexivity|discriminate..]. Qed.

Lemma add_isC x y a b : isC x a -> isC y b -> small (a + b) -> isC (f32_add x y) (a + b).
Proof.
  intros [Ha [->|[-> ->]]] [Hb [->|[-> ->]]] Hab; split; try exact Hab.
  - left. apply add_canon; assumption.
  - rewrite Z.add_0_r. left. destruct a; reflexivity.
  - rewrite Z.add_0_l. left. destruct b; reflexivity.
  - right. split; reflexivity.
Qed.

Lemma sub_isC x y a b : isC x a -> isC y b -> small (a - b) -> isC (f32_sub x y) (a - b).
Proof.
  intros [Ha [->|[-> ->]]] [Hb [->|[-> ->]]] Hab; split; try exact Hab.
  - left. apply sub_canon; assumption.
  - rewrite Z.sub_0_r. left. destruct a; reflexivity.
  - destruct b; [right; split; reflexivity|left; reflexivity..].
  - left. reflexivity.
Qed.

(** ** Comparison *)

Lemma shl_compare k p q : (shl k p ?= shl k q)%positive = (p ?= q)%positive.
Proof. induction k as [|k IH]; [reflexivity|]. change (shl (S k) p) with (xO (shl k p)). change (shl (S k) q) with (xO (shl k q)). exact IH. Qed.

Lemma compare_pos p q :
  match (dg p - 25) ?= (dg q - 25) with
  | Lt => Lt
  | Gt => Gt
  | Eq => Pcompare (shl (Z.to_nat (24 - dg p)) p) (shl (Z.to_nat (24 - dg q)) q) Eq
  end = (Zpos p ?= Zpos q).
Proof.
  pose proof (dg_bounds p) as [P1 P2]. pose proof (dg_bounds q) as [Q1 Q2].
  destruct (Z.compare_spec (dg p - 25) (dg q - 25)) as [H|H|H].
  - replace (dg q) with (dg p) by lia. rewrite (shl_compare _ p q). reflexivity.
  - symmetry. apply Z.compare_lt_iff. apply Z.lt_le_trans with (2 ^ dg p); [exact P2|].
    etransitivity; [|exact Q1]. apply Z.pow_le_mono_r; lia.
  - symmetry. apply Z.compare_gt_iff. apply Z.lt_le_trans with (2 ^ dg q); [exact Q2|].
    etransitivity; [|exact P1]. apply Z.pow_le_mono_r; lia.
Qed.

Lemma compare_canon a b : SFcompare (canon a) (canon b) = Some (a ?= b).
Proof.
  destruct a as [|p|p], b as [|q|q]; try reflexivity.
  - cbn [canon SFcompare]. f_equal. apply compare_pos.
  - cbn [canon SFcompare]. f_equal. change (Zneg p ?= Zneg q) with (CompOpp (Zpos p ?= Zpos q)).
    rewrite <- (compare_pos p q). destruct ((dg p - 25) ?= (dg q - 25)); reflexivity.
Qed.

Lemma lt_isC x y a b : isC x a -> isC y b -> f32_lt x y = (a <? b).
Proof.
  intros [Ha [->|[-> ->]]] [Hb [->|[-> ->]]]; unfold f32_lt, SFltb.
  - rewrite compare_canon. reflexivity.
  - destruct a; reflexivity.
  - destruct b; reflexivity.
  - reflexivity.
Qed.

Lemma EPS_eq : f32_EPSILON = S754_finite false 8388608 (-46).
Proof. reflexivity. Qed.

Lemma abs_lt_eps x z : isC x z -> f32_lt (f32_abs x) f32_EPSILON = (z =? 0).
Proof.
  intros [Hz [->|[-> ->]]]; [|reflexivity]. rewrite EPS_eq. destruct z as [|p|p]; [reflexivity| |];
  cbn [canon f32_abs SFabs f32_lt SFltb SFcompare]; pose proof (dg_pos p);
  replace ((dg p - 25) ?= (-46)) with Gt by (symmetry; apply Z.compare_gt_iff; lia); reflexivity.
Qed.

(** ** Meaning *)

Lemma isC_valid x z : isC x z -> is_f32 x /\ halves x z.
Proof.
  intros [Hz [->|[-> ->]]]; [|split; reflexivity].
  destruct (Z.eq_dec z 0) as [->|Nz]; [split; reflexivity|].
  destruct (canon_form z Nz Hz) as (s & p & Hp & Ez & ->). pose proof (dg_pos p) as Hp1.
  split.
  - unfold is_f32. cbn [valid_binary]. unfold bounded, canonical_mantissa.
    change (Zpos (digits2_pos ?x)) with (dg x). rewrite dg_shl, fexp32 by lia.
    apply andb_true_iff. split; [apply Zeq_is_eq_bool; lia|apply Z.leb_le; unfold emax32, prec32; lia].
  - cbn [halves]. replace (Z.min (dg p - 25) (-1)) with (dg p - 25) by lia.
    rewrite Z.sub_diag, Z.pow_0_r, Z.mul_1_r, shl_val, cond_mul, <- Ez. f_equal. f_equal. lia.
Qed.

Lemma valid_isC x z : is_f32 x -> halves x z -> small z -> isC x z.
Proof.
  intros V H Hz. destruct x as [s|s| |s m e]; cbn [halves] in H; try contradiction.
  - subst z. split; [exact Hz|]. destruct s; [right; split; reflexivity|left; reflexivity].
  - split; [exact Hz|]. left. unfold is_f32 in V. cbn [valid_binary] in V. unfold bounded, canonical_mantissa in V.
    apply andb_true_iff in V as [V1 V2]. apply Zeq_is_eq_bool in V1. apply Z.leb_le in V2.
    change (Zpos (digits2_pos m)) with (dg m) in V1. unfold emax32, prec32 in V2.
    assert (Nz : z <> 0).
    { intros ->. rewrite Z.mul_0_l in H. assert (0 < 2 ^ (e - Z.min e (-1))) by (apply Z.pow_pos_nonneg; lia).
      destruct s; cbn [cond_Zopp] in H; nia. }
    destruct (canon_form z Nz Hz) as (s' & p & Hp & Ez & ->). pose proof (dg_pos p) as Hp1. pose proof (dg_pos m) as Hm1.
    set (k := Z.min e (-1)) in *.
    assert (P1 : 0 < 2 ^ (e - k)) by (apply Z.pow_pos_nonneg; lia).
    assert (P2 : 0 < 2 ^ (-1 - k)) by (apply Z.pow_pos_nonneg; lia).
    assert (Es : s = s').
    { subst z. destruct s, s'; cbn [cond_Zopp] in H; try reflexivity; nia. }
    subst s'. assert (Hm : Zpos m * 2 ^ (e - k) = Zpos p * 2 ^ (-1 - k)).
    { subst z. destruct s; cbn [cond_Zopp] in H; lia. }
    assert (Hd : dg m + (e - k) = dg p + (-1 - k)).
    { replace (e - k) with (Z.of_nat (Z.to_nat (e - k))) in Hm |- * by lia.
      replace (-1 - k) with (Z.of_nat (Z.to_nat (-1 - k))) in Hm |- * by lia.
      rewrite <- !shl_val in Hm. rewrite <- !dg_shl. f_equal. congruence. }
    rewrite fexp32 in V1 by lia. assert (Ee : e = dg p - 25) by lia. assert (Ek : k = e) by (unfold k; lia).
    f_equal; [|exact Ee]. apply Pos2Z.inj. rewrite shl_val. rewrite Ek, Z.sub_diag, Z.pow_0_r, Z.mul_1_r in Hm. rewrite Hm. f_equal. f_equal. lia.
Qed.

Lemma of_N_isC x : small (2 * Z.of_N x) -> isC (f32_of_N x) (2 * Z.of_N x).
Proof. intros H. unfold f32_of_N. rewrite make_whole by exact H. apply canon_isC, H. Qed.
