(** More komi never hurts White, and every game has a fair komi. *)
From stdpp Require Import relations.
From Verif Require Import StrategySpec RectSymSpec RectReach RectCountSpec ScoreSpec RoundSpec.
From Verif Require Import MonadFacts Spec Game Builder Struct Push Inv Remove Capture Bridge GameFacts RulesFacts LegalFacts Float32 Float32Facts RoundFacts ScoreFacts FloatSwap FloatMono Territory TerritoryFacts.
From Verif Require Import RectSpec RectCoord RectInv RectBridge RectGame RectReachFacts RectMoves RectScore RectCount RectCountScore RectSymClaims RectGo StrategyFacts StealFacts AreaFacts KomiFacts.
From Coq Require Import Lia ZArith.

Local Notation length := Datatypes.length.
Local Open Scope nat_scope.

Lemma set_komi_over g k : is_over (set_komi g k) = is_over g.
Proof. reflexivity. Qed.

Lemma with_self g r : gm_rule g = r -> with_rule g r = g.
Proof. intros <-. destruct g. reflexivity. Qed.

(** a verdict for every winner *)
Lemma winner_range e : exists z, (0 <= z <= 2)%Z /\ winner_of z = endgame_winner e.
Proof.
  destruct (endgame_winner e) as [[]|]; [exists 2%Z|exists 0%Z|exists 1%Z]; (split; [lia|reflexivity]).
Qed.

(** the verdicts at the end of one game under two rules *)
Definition verdicts (order : list point -> list point) (dbg : bool) (h : game) (r r' : rule) (z z' : Z) : Prop :=
  (0 <= z <= 2)%Z /\ (0 <= z' <= 2)%Z /\
  exists e e', outcome order dbg (with_rule h r) = Ok (Some e) /\ endgame_winner e = winner_of z /\
    outcome order dbg (with_rule h r') = Ok (Some e') /\ endgame_winner e' = winner_of z'.

Section Monotone.
  Context (dbg : bool) (n : size_t) (r r' r0 : rule) (o : option endgame).
  Hypothesis Hd : Nat.divide (snd n) (fst n).
  Hypothesis Er : flag_illegal r = flag_illegal r0.
  Hypothesis Er' : flag_illegal r' = flag_illegal r0.
  Hypothesis V : forall order h b w, (forall l, order l ≡ₚ l) -> rgreach dbg n b w h -> gm_rule h = r0 -> gm_outcome h = o -> is_over h = true ->
    exists z z', verdicts order dbg h r r' z z' /\ (z <= z')%Z.

  Lemma verdicts_white b w g : rgreach dbg n b w g -> gm_rule g = r0 -> gm_outcome g = o ->
    (forces dbg n White (won dbg White) (with_rule g r) -> forces dbg n White (won dbg White) (with_rule g r')) /\
    (forces dbg n White (not_lost dbg White) (with_rule g r) -> forces dbg n White (not_lost dbg White) (with_rule g r')) /\
    (forces dbg n Black (won dbg Black) (with_rule g r') -> forces dbg n Black (won dbg Black) (with_rule g r)) /\
    (forces dbg n Black (not_lost dbg Black) (with_rule g r') -> forces dbg n Black (not_lost dbg Black) (with_rule g r)).
  Proof using All.
    intros HG HR HO. split; [|split; [|split]]; intros F.
    - eapply (forces_rule dbg n White _ _ r r' r0 o Hd Er Er'); [|exact HG|exact HR|exact HO|exact F]. intros h b' w' HH Hr Ho Ov W order Hord.
      destruct (V order h b' w' Hord HH Hr Ho Ov) as (z & z' & (Rz & Rz' & e & e' & E & We & E' & We') & L). destruct (W order Hord) as (x & Ex & Wx). rewrite E in Ex. injection Ex as <-.
      exists e'. split; [exact E'|]. rewrite We in Wx. rewrite We'. apply (white_wins_range z Rz) in Wx. apply (white_wins_range z' Rz'). lia.
    - eapply (forces_rule dbg n White _ _ r r' r0 o Hd Er Er'); [|exact HG|exact HR|exact HO|exact F]. intros h b' w' HH Hr Ho Ov W order Hord.
      destruct (V order h b' w' Hord HH Hr Ho Ov) as (z & z' & (Rz & Rz' & e & e' & E & We & E' & We') & L). destruct (W order Hord) as (x & Ex & Wx). rewrite E in Ex. injection Ex as <-.
      exists e'. split; [exact E'|]. rewrite We in Wx. rewrite We'. cbn [opp] in *. apply (white_keeps_range z Rz) in Wx. apply (white_keeps_range z' Rz'). lia.
    - eapply (forces_rule dbg n Black _ _ r' r r0 o Hd Er' Er); [|exact HG|exact HR|exact HO|exact F]. intros h b' w' HH Hr Ho Ov W order Hord.
      destruct (V order h b' w' Hord HH Hr Ho Ov) as (z & z' & (Rz & Rz' & e & e' & E & We & E' & We') & L). destruct (W order Hord) as (x & Ex & Wx). rewrite E' in Ex. injection Ex as <-.
      exists e. split; [exact E|]. rewrite We' in Wx. rewrite We. apply (black_wins_range z' Rz') in Wx. apply (black_wins_range z Rz). lia.
    - eapply (forces_rule dbg n Black _ _ r' r r0 o Hd Er' Er); [|exact HG|exact HR|exact HO|exact F]. intros h b' w' HH Hr Ho Ov W order Hord.
      destruct (V order h b' w' Hord HH Hr Ho Ov) as (z & z' & (Rz & Rz' & e & e' & E & We & E' & We') & L). destruct (W order Hord) as (x & Ex & Wx). rewrite E' in Ex. injection Ex as <-.
      exists e. split; [exact E|]. rewrite We' in Wx. rewrite We. cbn [opp] in *. apply (black_keeps_range z' Rz') in Wx. apply (black_keeps_range z Rz). lia.
  Qed.
End Monotone.

Lemma resigned_verdicts order dbg h r r' x : gm_outcome h = Some x -> exists z z', verdicts order dbg h r r' z z' /\ (z <= z')%Z.
Proof.
  intros O. destruct (winner_range x) as (z & Rz & Ez). exists z, z. split; [|lia]. split; [exact Rz|]. split; [exact Rz|]. exists x, x.
  unfold outcome, is_over. cbn [gm_outcome with_rule]. rewrite O. cbn [negb]. auto.
Qed.

Theorem more_komi dbg n b w g k k' u u' : Nat.divide (snd n) (fst n) -> rgreach dbg n b w g ->
  is_f32 k -> is_f32 k' -> units k = Some u -> units k' = Some u' -> (u <= u')%Z ->
  (forces dbg n White (won dbg White) (set_komi g k) -> forces dbg n White (won dbg White) (set_komi g k')) /\
  (forces dbg n White (not_lost dbg White) (set_komi g k) -> forces dbg n White (not_lost dbg White) (set_komi g k')) /\
  (forces dbg n Black (won dbg Black) (set_komi g k') -> forces dbg n Black (won dbg Black) (set_komi g k)) /\
  (forces dbg n Black (not_lost dbg Black) (set_komi g k') -> forces dbg n Black (not_lost dbg Black) (set_komi g k)).
Proof.
  intros Hd HG Vk Vk' Uk Uk' L. rewrite !set_komi_with. eapply (verdicts_white dbg n (mkRule k (flag_illegal (gm_rule g)) (flag_score (gm_rule g))) (mkRule k' (flag_illegal (gm_rule g)) (flag_score (gm_rule g))) (gm_rule g) (gm_outcome g) Hd eq_refl eq_refl); [|exact HG|reflexivity|reflexivity].
  intros order h b' w' Ho HH Hr HO Ov. destruct (gm_outcome h) as [x|] eqn:O; [eapply resigned_verdicts, O|].
  destruct (judged_exists dbg n order b' w' h (flag_score (gm_rule g)) Hd HH Ho Ov O) as (sb & sw & UB & UW & J).
  destruct (J (mkRule k (flag_illegal (gm_rule g)) (flag_score (gm_rule g))) eq_refl eq_refl) as (e & E & We).
  destruct (J (mkRule k' (flag_illegal (gm_rule g)) (flag_score (gm_rule g))) eq_refl eq_refl) as (e' & E' & We'). cbn [flag_score r_komi] in We, We'.
  eexists _, _. split; [split; [|split; [|exists e, e'; split; [exact E|split; [exact We|split; [exact E'|exact We']]]]]; apply judge_range|].
  destruct (N.testbit _ 1); [|lia]. eapply more_komi_judge; [exact UB|exact UW|split; [exact Vk|exact Uk]|split; [exact Vk'|exact Uk']|exact L].
Qed.

(** ** With no compensation for White the first player does not lose *)

Theorem steal_komi dbg n s r g u : Nat.divide (snd n) (fst n) -> 1 <= fst n -> 1 <= snd n -> size_of s = n -> game_new s r = Ok g ->
  is_f32 (r_komi r) -> units (r_komi r) = Some u -> (u <= 0)%Z -> forces dbg n Black (not_lost dbg Black) g.
Proof.
  intros Hd H1 H2 Hs E Vk Uk L. destruct (N.testbit (flag_score r) 1) eqn:K; [|eapply steal; eassumption].
  set (r' := mkRule (r_komi r) (flag_illegal r) (N.clearbit (flag_score r) 1)).
  assert (E' : game_new s r' = Ok (with_rule g r')).
  { unfold game_new in *. apply bind_ok in E as (gb & Eg & E). rewrite Eg. cbn [bind]. injection E as <-. reflexivity. }
  assert (Rg : gm_rule g = r) by (destruct (new_fields _ _ _ _ E Hs) as (_ & _ & _ & _ & _ & _ & R); exact R).
  assert (Og : gm_outcome g = None) by (destruct (new_fields _ _ _ _ E Hs) as (_ & _ & _ & R & _); exact R).
  pose proof (steal dbg n s r' _ Hd H1 H2 Hs E' (N.clearbit_eq _ _)) as F.
  assert (HG : rgreach dbg n 0 0 g) by (eapply rg_new; eassumption).
  rewrite <- (with_self g r Rg).
  refine (proj2 (proj2 (proj2 (verdicts_white dbg n r r' r None Hd eq_refl eq_refl _ 0 0 g HG Rg Og))) F).
  intros order h b' w' Ho HH Hr O Ov. destruct (judged_exists dbg n order b' w' h (flag_score r) Hd HH Ho Ov O) as (sb & sw & UB & UW & J).
  destruct (J r eq_refl eq_refl) as (e & Ee & We).
  destruct (J r') as (e' & Ee' & We').
  { cbn [flag_score r']. rewrite !(flag_bit _ 2 PRISONNERS) by reflexivity. apply N.clearbit_neq. lia. }
  { cbn [flag_score r']. rewrite !(flag_bit _ 0 STONES) by reflexivity. apply N.clearbit_neq. lia. }
  cbn [flag_score r'] in We'. rewrite N.clearbit_eq in We'. rewrite K in We.
  eexists _, _. split; [split; [|split; [|exists e, e'; split; [exact Ee|split; [exact We|split; [exact Ee'|exact We']]]]]; apply judge_range|].
  eapply no_komi_judge; [exact UB|exact UW|split; [exact Vk|exact Uk]|exact L].
Qed.

(** ** Every game has a fair komi *)

Lemma last_true (P : Z -> Prop) lo hi : (lo <= hi)%Z -> (forall z, (lo <= z <= hi)%Z -> P z \/ ~ P z) -> P lo ->
  exists z, (lo <= z <= hi)%Z /\ P z /\ forall y, (z < y <= hi)%Z -> ~ P y.
Proof.
  intros L D Plo. remember (Z.to_nat (hi - lo)) as k eqn:Ek. revert hi L D Ek. induction k as [|k IH]; intros hi L D Ek.
  - exists lo. split; [lia|]. split; [exact Plo|]. intros y Hy. lia.
  - destruct (D hi ltac:(lia)) as [T|F]; [exists hi; split; [lia|]; split; [exact T|]; intros y Hy; lia|].
    destruct (IH (hi - 1)%Z ltac:(lia) ltac:(intros z Hz; apply D; lia) ltac:(lia)) as (z & Hz & Pz & A). exists z. split; [lia|]. split; [exact Pz|].
    intros y Hy. destruct (Z.eq_dec y hi) as [->|N]; [exact F|]. apply A. lia.
Qed.

(** the [f32] nearest to a number of units *)
Definition rnd (z : Z) : f32 := SpecFloat.binary_normalize prec32 emax32 z (-149) false.
Lemma rnd_rounds z : (Z.abs z <= TOP)%Z -> rounds_to (rnd z) z.
Proof.
  intros H. unfold rnd. pose proof (normalize_rounds z (-149) ltac:(lia)) as R. change (2 ^ (-149 + 149))%Z with 1%Z in R. rewrite !Z.mul_1_r in R. apply R.
  assert (TOP < overflow_from)%Z by (vm_compute; reflexivity). lia.
Qed.
Lemma rnd_finite z : (Z.abs z <= TOP)%Z -> exists u, finite (rnd z) u.
Proof. intros H. exact (rounds_finite _ _ (rnd_rounds z H)). Qed.
Lemma rnd_self k u : finite k u -> finite (rnd u) u.
Proof.
  intros [V U]. pose proof (rnd_rounds u (units_top k u V U)) as R. split; [apply R|]. exact (rounds_self _ _ _ R V U).
Qed.

(** a property of the komi that smaller ones have as well, some have and some do not, has a greatest one *)
Lemma greatest (B : f32 -> Prop) a z ua uz : finite a ua -> finite z uz -> B a -> ~ B z ->
  (forall k u, finite k u -> B k \/ ~ B k) -> (forall k k' u u', finite k u -> finite k' u' -> (u <= u')%Z -> B k' -> B k) ->
  exists hi uh, finite hi uh /\ (ua <= uh < uz)%Z /\ forall k u, finite k u -> (B k <-> (u <= uh)%Z).
Proof.
  intros Fa Fz Ba Bz D A.
  assert (Laz : (ua < uz)%Z) by (destruct (Z.lt_ge_cases ua uz) as [H|H]; [exact H|]; exfalso; apply Bz; eapply A; [exact Fz|exact Fa|exact H|exact Ba]).
  pose proof (units_top _ _ (proj1 Fa) (proj2 Fa)) as Ta. pose proof (units_top _ _ (proj1 Fz) (proj2 Fz)) as Tz.
  destruct (last_true (fun x => B (rnd x)) ua uz) as (m & Hm & Bm & Up); [lia| | |].
  { intros x Hx. destruct (rnd_finite x ltac:(lia)) as (u & F). exact (D _ _ F). }
  { eapply A; [exact (rnd_self _ _ Fa)|exact Fa|lia|exact Ba]. }
  destruct (rnd_finite m ltac:(lia)) as (uh & Fh). pose proof (rnd_rounds m ltac:(lia)) as Rm.
  assert (Iff : forall k u, finite k u -> B k <-> (u <= uh)%Z).
  { intros k u Fk. split; intros H.
    - pose proof (A _ _ _ _ (rnd_self _ _ Fk) Fk (Z.le_refl _) H) as Bu.
      destruct (Z.le_gt_cases u m) as [L|L]; [exact (rounds_ge _ _ _ k u Rm (proj2 Fh) (proj1 Fk) (proj2 Fk) L)|].
      exfalso. destruct (Z.le_gt_cases u uz) as [L'|L']; [exact (Up u ltac:(lia) Bu)|]. apply Bz. eapply A; [exact Fz|exact Fk|lia|exact H].
    - eapply A; [exact Fk|exact Fh|exact H|exact Bm]. }
  exists (rnd m), uh. split; [exact Fh|]. split; [|exact Iff]. split; [apply (Iff a ua Fa), Ba|].
  destruct (Z.lt_ge_cases uh uz) as [H|H]; [exact H|]. exfalso. apply Bz. apply (Iff z uz Fz), H.
Qed.

Section Fair.
  Context (dbg : bool) (n : size_t) (b w : nat) (g : game).
  Hypothesis Hd : Nat.divide (snd n) (fst n).
  Hypothesis HG : rgreach dbg n b w g.
  Hypothesis O : gm_outcome g = None.
  Hypothesis K : N.testbit (flag_score (gm_rule g)) 1 = true.

  (** with a very large komi one of the players cannot win *)
  Lemma huge_decides k u : finite k u ->
    ((HUGE <= u)%Z -> forces dbg n White (won dbg White) (set_komi g k)) /\ ((u <= - HUGE)%Z -> forces dbg n Black (won dbg Black) (set_komi g k)).
  Proof using All.
    intros F. assert (HK : rgreach dbg n b w (set_komi g k)) by (apply rg_komi, HG).
    pose proof (game_value dbg n b w _ Hd HK) as (V & _). split; intros L.
    - destruct (V White) as [H|H]; [exact H|]. exfalso. rewrite set_komi_with in H. eapply (forces_nothing dbg n Black). eapply (forces_rule dbg n Black _ (fun _ => False) (mkRule k (flag_illegal (gm_rule g)) (flag_score (gm_rule g))) (gm_rule g) (gm_rule g) None Hd eq_refl eq_refl); [|exact HG|reflexivity|exact O|exact H].
      intros h b' w' HH Hr HO Ov N. destruct (N (fun l => l) (fun l => Permutation_refl l)) as (x & Ex & Wx).
      destruct (judged_exists dbg n (fun l => l) b' w' h (flag_score (gm_rule g)) Hd HH (fun l => Permutation_refl l) Ov HO) as (sb & sw & UB & UW & J).
      destruct (J (mkRule k (flag_illegal (gm_rule g)) (flag_score (gm_rule g))) eq_refl eq_refl) as (e & Ee & We). cbn [flag_score r_komi] in We. rewrite K in We.
      rewrite (proj1 (huge_komi sb sw k u UB UW F) L) in We. rewrite Ee in Ex. injection Ex as <-. apply Wx. exact We.
    - destruct (V Black) as [H|H]; [exact H|]. exfalso. rewrite set_komi_with in H. eapply (forces_nothing dbg n White). eapply (forces_rule dbg n White _ (fun _ => False) (mkRule k (flag_illegal (gm_rule g)) (flag_score (gm_rule g))) (gm_rule g) (gm_rule g) None Hd eq_refl eq_refl); [|exact HG|reflexivity|exact O|exact H].
      intros h b' w' HH Hr HO Ov N. destruct (N (fun l => l) (fun l => Permutation_refl l)) as (x & Ex & Wx).
      destruct (judged_exists dbg n (fun l => l) b' w' h (flag_score (gm_rule g)) Hd HH (fun l => Permutation_refl l) Ov HO) as (sb & sw & UB & UW & J).
      destruct (J (mkRule k (flag_illegal (gm_rule g)) (flag_score (gm_rule g))) eq_refl eq_refl) as (e & Ee & We). cbn [flag_score r_komi] in We. rewrite K in We.
      rewrite (proj2 (huge_komi sb sw k u UB UW F) L) in We. rewrite Ee in Ex. injection Ex as <-. apply Wx. exact We.
  Qed.

  Lemma huge_exist : exists a z, finite a (- HUGE) /\ finite z HUGE.
  Proof using.
    destruct (representable 1 178 ltac:(lia) ltac:(lia)) as (z & Vz & Uz). destruct (representable (-1) 178 ltac:(lia) ltac:(lia)) as (a & Va & Ua).
    exists a, z. split; split; assumption.
  Qed.

  Lemma black_keeps_or c k : forces dbg n c (not_lost dbg c) (set_komi g k) \/ ~ forces dbg n c (not_lost dbg c) (set_komi g k).
  Proof using Hd HG.
    pose proof (game_value dbg n b w _ Hd (rg_komi dbg n b w g k HG)) as (V & N & _). destruct (V (opp c)) as [H|H]; rewrite ?opp_invol in H; [right|left; exact H].
    intros H'. apply (N (opp c)). rewrite opp_invol. split; assumption.
  Qed.

  Lemma won_iff c k : forces dbg n c (won dbg c) (set_komi g k) <-> ~ forces dbg n (opp c) (not_lost dbg (opp c)) (set_komi g k).
  Proof using Hd HG.
    pose proof (game_value dbg n b w _ Hd (rg_komi dbg n b w g k HG)) as (V & N & _). split.
    - intros H H'. apply (N c). split; assumption.
    - intros H. destruct (V c) as [H'|H']; [exact H'|contradiction].
  Qed.

  Theorem fair_komi : exists lo hi ulo uhi, is_f32 lo /\ is_f32 hi /\ units lo = Some ulo /\ units hi = Some uhi /\
    forall k u, is_f32 k -> units k = Some u ->
      (forces dbg n Black (won dbg Black) (set_komi g k) <-> (u < ulo)%Z) /\
      (forces dbg n White (not_lost dbg White) (set_komi g k) <-> (ulo <= u)%Z) /\
      (forces dbg n Black (not_lost dbg Black) (set_komi g k) <-> (u <= uhi)%Z) /\
      (forces dbg n White (won dbg White) (set_komi g k) <-> (uhi < u)%Z).
  Proof using All.
    destruct huge_exist as (a & z & Fa & Fz).
    destruct (greatest (fun k => forces dbg n Black (not_lost dbg Black) (set_komi g k)) a z _ _ Fa Fz) as (hi & uhi & Fh & _ & Ih).
    { pose proof (proj2 (huge_decides a _ Fa) (Z.le_refl _)) as H. apply (forces_mono dbg n b w Black (won dbg Black)); [exact Hd|apply rg_komi, HG| |exact H].
      intros h b' w' HH Ov Wn order Ho. destruct (Wn order Ho) as (e & E & We). exists e. split; [exact E|]. rewrite We. discriminate. }
    { pose proof (proj1 (huge_decides z _ Fz) (Z.le_refl _)) as H. exact (proj1 (won_iff White z) H). }
    { intros k u _. apply black_keeps_or. }
    { intros k k' u u' [V U] [V' U'] L. exact (proj2 (proj2 (proj2 (more_komi dbg n b w g k k' u u' Hd HG V V' U U' L)))). }
    destruct (greatest (fun k => forces dbg n White (not_lost dbg White) (set_komi g (SpecFloat.SFopp k))) a z _ _ Fa Fz) as (lo & ulo & Fl & _ & Il).
    { assert (Fo : finite (SpecFloat.SFopp a) HUGE) by (destruct Fa as [V U]; split; [apply is_f32_opp, V|]; rewrite (units_opp _ _ U); f_equal; lia).
      pose proof (proj1 (huge_decides _ _ Fo) (Z.le_refl _)) as H. apply (forces_mono dbg n b w White (won dbg White)); [exact Hd|apply rg_komi, HG| |exact H].
      intros h b' w' HH Ov Wn order Ho. destruct (Wn order Ho) as (e & E & We). exists e. split; [exact E|]. rewrite We. discriminate. }
    { assert (Fo : finite (SpecFloat.SFopp z) (- HUGE)) by (destruct Fz as [V U]; split; [apply is_f32_opp, V|]; exact (units_opp _ _ U)).
      pose proof (proj2 (huge_decides _ _ Fo) (Z.le_refl _)) as H. exact (proj1 (won_iff Black _) H). }
    { intros k u _. apply black_keeps_or. }
    { intros k k' u u' [V U] [V' U'] L. apply (proj1 (proj2 (more_komi dbg n b w g _ _ (- u') (- u) Hd HG (is_f32_opp _ V') (is_f32_opp _ V) (units_opp _ _ U') (units_opp _ _ U) ltac:(lia)))). }
    assert (Iw : forall k u, finite k u -> forces dbg n White (not_lost dbg White) (set_komi g k) <-> (- ulo <= u)%Z).
    { intros k u [V U]. pose proof (Il (SpecFloat.SFopp k) (- u)%Z (conj (is_f32_opp _ V) (units_opp _ _ U))) as H. cbv beta in H.
      replace (SpecFloat.SFopp (SpecFloat.SFopp k)) with k in H by (destruct k; cbn; rewrite ?Bool.negb_involutive; reflexivity). rewrite H. lia. }
    exists (SpecFloat.SFopp lo), hi, (- ulo)%Z, uhi. split; [apply is_f32_opp, Fl|]. split; [apply Fh|]. split; [apply units_opp, Fl|]. split; [apply Fh|].
    intros k u V U. pose proof (Ih k u (conj V U)) as H1. pose proof (Iw k u (conj V U)) as H2. cbv beta in H1.
    pose proof (won_iff Black k) as H3. pose proof (won_iff White k) as H4. cbn [opp] in H3, H4. rewrite H2 in H3. rewrite H1 in H4.
    split; [rewrite H3; lia|]. split; [exact H2|]. split; [exact H1|]. rewrite H4. lia.
  Qed.
End Fair.

(** ** Where captured stones do not count, a whole number of points is fair *)

(** a whole number of points, not too large *)
Definition whole (x : f32) : Prop := is_f32 x /\ exists z, units x = Some (points_in_units z) /\ (0 <= z <= 2 ^ 20)%Z.

Lemma whole_exact x z : rounds_to x (points_in_units z) -> (Z.abs z < 2 ^ 24)%Z -> units x = Some (points_in_units z).
Proof.
  intros R H. destruct (representable z 149 H ltac:(lia)) as (y & V & U). exact (rounds_self _ _ _ R V U).
Qed.

Lemma points_fit z : (Z.abs z < 2 ^ 24)%Z -> (Z.abs (points_in_units z) < overflow_from)%Z.
Proof.
  intros H. unfold points_in_units. rewrite Z.abs_mul, (Z.abs_eq (2 ^ 149)) by (apply Z.pow_nonneg; lia).
  assert (2 ^ 24 * 2 ^ 149 < overflow_from)%Z by (vm_compute; reflexivity). pose proof (pow2_pos 149 ltac:(lia)). nia.
Qed.

Lemma whole_of_N x : (Z.of_N x <= 2 ^ 20)%Z -> is_f32 (f32_of_N x) /\ units (f32_of_N x) = Some (points_in_units (Z.of_N x)).
Proof.
  intros H. assert (L : (Z.abs (Z.of_N x) < 2 ^ 24)%Z) by (rewrite Z.abs_eq by lia; lia). pose proof (points_fit _ L) as B.
  assert (R : rounds_to (f32_of_N x) (points_in_units (Z.of_N x))).
  { apply (normalize_rounds (Z.of_N x) 0); [lia|]. change (0 + 149)%Z with 149%Z. unfold points_in_units in B. rewrite Z.abs_mul, (Z.abs_eq (2 ^ 149)) in B by (apply Z.pow_nonneg; lia). exact B. }
  split; [apply R|]. exact (whole_exact _ _ R L).
Qed.

Lemma whole_add x y a c : is_f32 x -> is_f32 y -> units x = Some (points_in_units a) -> units y = Some (points_in_units c) -> (Z.abs (a + c) < 2 ^ 24)%Z ->
  is_f32 (f32_add x y) /\ units (f32_add x y) = Some (points_in_units (a + c)).
Proof.
  intros V V' U U' H. assert (E : (points_in_units a + points_in_units c = points_in_units (a + c))%Z) by (unfold points_in_units; ring).
  pose proof (add_rounds x y _ _ V V' U U' ltac:(rewrite E; apply points_fit, H)) as R. rewrite E in R. split; [apply R|]. exact (whole_exact _ _ R H).
Qed.

Lemma whole_sub x y a c : is_f32 x -> is_f32 y -> units x = Some (points_in_units a) -> units y = Some (points_in_units c) -> (Z.abs (a - c) < 2 ^ 24)%Z ->
  is_f32 (f32_sub x y) /\ units (f32_sub x y) = Some (points_in_units (a - c)).
Proof.
  intros V V' U U' H. assert (E : (points_in_units a - points_in_units c = points_in_units (a - c))%Z) by (unfold points_in_units; ring).
  pose proof (sub_rounds x y _ _ V V' U U' ltac:(rewrite E; apply points_fit, H)) as R. rewrite E in R. split; [apply R|]. exact (whole_exact _ _ R H).
Qed.

(** between whole scores the sign of the difference decides *)
Lemma whole_judge x y a c : is_f32 x -> is_f32 y -> units x = Some (points_in_units a) -> units y = Some (points_in_units c) -> (Z.abs (a - c) < 2 ^ 24)%Z ->
  judge x y = if (a <? c)%Z then 2%Z else if (c <? a)%Z then 0%Z else 1%Z.
Proof.
  intros V V' U U' H. destruct (whole_sub x y a c V V' U U' H) as (Vd & Ud). unfold judge. destruct eps_finite as [Ve Ue].
  destruct (abs_units _ _ Vd Ud) as (Va & Ua). rewrite (lt_units _ _ _ _ Va Ve Ua Ue), (lt_units _ _ _ _ V' V U' U).
  assert (P : (EPS_UNITS < 2 ^ 149)%Z) by reflexivity. assert (P0 : (0 < EPS_UNITS)%Z) by reflexivity. unfold points_in_units.
  rewrite Z.abs_mul, (Z.abs_eq (2 ^ 149)) by (apply Z.pow_nonneg; lia). pose proof (pow2_pos 149 ltac:(lia)).
  destruct (Z.ltb_spec (Z.abs (a - c) * 2 ^ 149) EPS_UNITS), (Z.ltb_spec (c * 2 ^ 149) (a * 2 ^ 149)), (Z.ltb_spec a c), (Z.ltb_spec c a); try reflexivity; exfalso; nia.
Qed.

(** a game on a square board *)
Lemma rgreach_square dbg s n b w g : s = (n, n) -> rgreach dbg s b w g -> greach dbg n b w g.
Proof.
  intros -> H. induction H as [sz r g H1 H2 Hs E|bl g H1 H2 Hs Hm Hn Ho E|b w g x y g' HG IH Hp He E|b w g g' HG IH E|b w g c g' HG IH E|b w g HG IH|b w g k HG IH|b w g pts g' HG IH Hn Hp E].
  - eapply gr_new; eassumption.
  - eapply gr_build; eassumption.
  - eapply gr_play; eassumption.
  - eapply gr_pass; eassumption.
  - eapply gr_resign; eassumption.
  - apply gr_resume, IH.
  - apply gr_komi, IH.
  - eapply gr_handicap; eassumption.
Qed.
Lemma greach_square dbg n b w g : greach dbg n b w g -> rgreach dbg (n, n) b w g.
Proof.
  induction 1 as [sz r g H1 Hs E|bl g H1 Hs Hm Hn Ho E|b w g x y g' HG IH Hp He E|b w g g' HG IH E|b w g c g' HG IH E|b w g HG IH|b w g k HG IH|b w g pts g' HG IH Hn Hp E].
  - eapply rg_new; eassumption.
  - eapply rg_build; eassumption.
  - eapply rg_play; eassumption.
  - eapply rg_pass; eassumption.
  - eapply rg_resign; eassumption.
  - apply rg_resume, IH.
  - apply rg_komi, IH.
  - eapply rg_handicap; eassumption.
Qed.

(** no score is larger than this *)
Definition most_points (n : size_t) : Z := if fst n =? snd n then Z.of_nat (fst n * snd n) else 2 ^ 19.

Section Whole.
  Context (dbg : bool) (n : size_t) (b w : nat) (g : game).
  Hypothesis Hd : Nat.divide (snd n) (fst n).
  Hypothesis HG : rgreach dbg n b w g.
  Hypothesis O : gm_outcome g = None.
  Hypothesis K : N.testbit (flag_score (gm_rule g)) 1 = true.
  Hypothesis Pr : N.testbit (flag_score (gm_rule g)) 2 = false.

  Lemma whole_score order b' w' h : rgreach dbg n b' w' h -> (forall l, order l ≡ₚ l) -> exists sb sw zb zw,
    is_f32 sb /\ is_f32 sw /\ units sb = Some (points_in_units zb) /\ units sw = Some (points_in_units zw) /\ (0 <= zb <= most_points n)%Z /\ (0 <= zw <= most_points n)%Z /\
    forall k, calculate_score_by order dbg (with_rule h (mkRule k (flag_illegal (gm_rule g)) (flag_score (gm_rule g)))) (flag_score (gm_rule g)) = Ok (sb, f32_add sw k).
  Proof using Hd K Pr.
    intros HH Ho. pose proof (rgreach_inv _ _ _ _ _ Hd HH) as Gg. pose proof (rgi_wf _ _ _ _ Gg) as W. pose proof Hd as [k Hk].
    destruct (rterritories_core order dbg n (gm_goban h) k W Hk Ho) as (l & G & bt & wt & El & T & E & CB & CW & _).
    pose proof (rcounted_bound n _ k l G Black _ W Hk El T CB) as BB. pose proof (rcounted_bound n _ k l G White _ W Hk El T CW) as BW.
    pose proof (rcount_bound n (pos_of (gm_goban h)) Black (rwf_n n _ W)) as SB. pose proof (rcount_bound n (pos_of (gm_goban h)) White (rwf_n n _ W)) as SW.
    rewrite !fmap_length in *. unfold point in *.
    destruct (whole_of_N (N.of_nat (length bt)) ltac:(lia)) as [XB YB]. destruct (whole_of_N (N.of_nat (length wt)) ltac:(lia)) as [XW YW].
    destruct (whole_of_N (N.of_nat (rcount n (pos_of (gm_goban h)) Black)) ltac:(lia)) as [ZB TB]. destruct (whole_of_N (N.of_nat (rcount n (pos_of (gm_goban h)) White)) ltac:(lia)) as [ZW TW].
    destruct (whole_add _ _ _ _ XB ZB YB TB ltac:(lia)) as [AB UB]. destruct (whole_add _ _ _ _ XW ZW YW TW ltac:(lia)) as [AW UW].
    assert (MP : (Z.of_nat (length bt) + Z.of_nat (rcount n (pos_of (gm_goban h)) Black) <= most_points n)%Z /\ (Z.of_nat (length wt) + Z.of_nat (rcount n (pos_of (gm_goban h)) White) <= most_points n)%Z).
    { unfold most_points. destruct (Nat.eqb_spec (fst n) (snd n)) as [Sq|_]; [|lia].
      assert (En : n = (fst n, fst n)) by (rewrite Sq at 2; apply surjective_pairing).
      destruct (area_is_the_board order dbg (fst n) b' w' h (rgreach_square _ _ _ _ _ _ En HH) Ho) as (ab & aw & A & B & d & Ea & HA & HB & _ & L).
      unfold calculate_score_by, calculate_territories in Ea. rewrite E in Ea. cbn [bind] in Ea. rewrite (rnumber_of_stones_ok n _ W) in Ea.
      change (flag_contains STONES PRISONNERS) with false in Ea. change (flag_contains STONES STONES) with true in Ea. change (flag_contains STONES KOMI) with false in Ea. cbn iota in Ea. cbv zeta in Ea.
      apply (f_equal (fun r => match r with Ok v => v | _ => (ab, aw) end)) in Ea. cbn iota in Ea. apply pair_equal_spec in Ea as [Ea1 Ea2]. subst ab aw.
      pose proof (halves_units _ _ AB HA) as QA. pose proof (halves_units _ _ AW HB) as QB. unfold point in *. rewrite UB in QA. rewrite UW in QB.
      assert (P : (points_in_units 1 = 2 * 2 ^ 148)%Z) by reflexivity. assert (Pp : (0 < 2 ^ 148)%Z) by reflexivity.
      assert (X : forall x y, Some (points_in_units x) = Some (y * 2 ^ 148)%Z -> (y = 2 * x)%Z).
      { intros x y Q. apply (f_equal (fun o => match o with Some z => z | None => 0%Z end)) in Q. cbn iota in Q. unfold points_in_units in Q. change (2 ^ 149)%Z with (2 * 2 ^ 148)%Z in Q. nia. }
      apply X in QA, QB. rewrite <- Sq. lia. }
    destruct MP as [MB MW].
    unfold calculate_score_by, calculate_territories. cbn [gm_goban with_rule gm_prisoners komi gm_rule r_komi]. rewrite E. cbn [bind]. rewrite (rnumber_of_stones_ok n _ W).
    rewrite (flag_bit _ 1 KOMI), K, (flag_bit _ 2 PRISONNERS), Pr by reflexivity.
    destruct (flag_contains _ STONES).
    - eexists _, _, _, _. split; [exact AB|]. split; [exact AW|]. split; [exact UB|]. split; [exact UW|]. split; [lia|]. split; [lia|]. intros x. reflexivity.
    - eexists _, _, _, _. split; [exact XB|]. split; [exact XW|]. split; [exact YB|]. split; [exact YW|]. split; [lia|]. split; [lia|]. intros x. reflexivity.
  Qed.

  Lemma most_points_range : (0 <= most_points n <= 2 ^ 19)%Z.
  Proof using Hd HG.
    pose proof (rgreach_inv _ _ _ _ _ Hd HG) as G. pose proof (rgi_wf _ _ _ _ G) as W. destruct (rwf_n _ _ W) as ([F0 F1] & F2 & k & F3).
    unfold most_points. destruct (Nat.eqb_spec (fst n) (snd n)) as [Sq|_]; [|lia]. rewrite <- Sq. assert (fst n * fst n <= 19 * 19) by (apply Nat.mul_le_mono; lia). lia.
  Qed.

  (** the komi of a whole number of points *)
  Lemma komi_of z : (Z.abs z < 2 ^ 22)%Z -> is_f32 (rnd (points_in_units z)) /\ units (rnd (points_in_units z)) = Some (points_in_units z).
  Proof using.
    intros H. destruct (representable z 149 ltac:(lia) ltac:(lia)) as (y & V & U). exact (rnd_self y _ (conj V U)).
  Qed.

  Lemma whole_verdict order b' w' h : rgreach dbg n b' w' h -> (forall l, order l ≡ₚ l) -> is_over h = true -> gm_outcome h = None -> exists zb zw, (0 <= zb <= most_points n)%Z /\ (0 <= zw <= most_points n)%Z /\
    forall z, (Z.abs z < 2 ^ 22)%Z -> exists e, outcome order dbg (with_rule h (mkRule (rnd (points_in_units z)) (flag_illegal (gm_rule g)) (flag_score (gm_rule g)))) = Ok (Some e) /\
      endgame_winner e = winner_of (if (zb <? zw + z)%Z then 2%Z else if (zw + z <? zb)%Z then 0%Z else 1%Z).
  Proof using Hd HG K Pr.
    intros HH Ho Ov HO. destruct (whole_score order b' w' h HH Ho) as (sb & sw & zb & zw & VB & VW & UB & UW & LB & LW & E).
    pose proof most_points_range as MR. exists zb, zw. split; [exact LB|]. split; [exact LW|]. intros z Hz. destruct (komi_of z Hz) as [Vk Uk].
    destruct (whole_add _ _ _ _ VW Vk UW Uk ltac:(lia)) as [VA UA]. destruct (judged order dbg h _ _ _ Ov HO (E (rnd (points_in_units z)))) as (e & Ee & We).
    exists e. split; [exact Ee|]. rewrite We. f_equal. apply whole_judge; try assumption. lia.
  Qed.

  Theorem whole_komi : exists z k, (Z.abs z <= most_points n)%Z /\ is_f32 k /\ units k = Some (points_in_units z) /\
    forces dbg n Black (not_lost dbg Black) (set_komi g k) /\ forces dbg n White (not_lost dbg White) (set_komi g k).
  Proof using All.
    pose proof most_points_range as MR. set (at_komi := fun z => set_komi g (rnd (points_in_units z))).
    destruct (last_true (fun z => forces dbg n Black (not_lost dbg Black) (at_komi z)) (- most_points n)%Z (most_points n + 1)%Z) as (z & Hz & Bz & Up); [lia| | |].
    { intros z _. apply (black_keeps_or dbg n b w g Hd HG). }
    { destruct (game_value dbg n b w (at_komi (- most_points n)%Z) Hd (rg_komi dbg n b w g _ HG)) as (V & _). destruct (V White) as [H|H]; [|exact H]. exfalso.
      unfold at_komi in H. rewrite set_komi_with in H. eapply (forces_nothing dbg n White). eapply (forces_rule dbg n White _ (fun _ => False) (mkRule (rnd (points_in_units (- most_points n))) (flag_illegal (gm_rule g)) (flag_score (gm_rule g))) (gm_rule g) (gm_rule g) None Hd eq_refl eq_refl); [|exact HG|reflexivity|exact O|exact H].
      intros h b' w' HH Hr HO Ov N. destruct (N (fun l => l) (fun l => Permutation_refl l)) as (x & Ex & Wx).
      destruct (whole_verdict (fun l => l) b' w' h HH (fun l => Permutation_refl l) Ov HO) as (zb & zw & LB & LW & J). destruct (J (- most_points n)%Z ltac:(lia)) as (e & Ee & We).
      rewrite Ee in Ex. injection Ex as <-. rewrite We in Wx. destruct (Z.ltb_spec zb (zw + - most_points n)); [lia|]. destruct (Z.ltb_spec (zw + - most_points n) zb); discriminate Wx. }
    assert (Nz : z <> (most_points n + 1)%Z).
    { intros ->. unfold at_komi in Bz. rewrite set_komi_with in Bz. eapply (forces_nothing dbg n Black). eapply (forces_rule dbg n Black _ (fun _ => False) (mkRule (rnd (points_in_units (most_points n + 1))) (flag_illegal (gm_rule g)) (flag_score (gm_rule g))) (gm_rule g) (gm_rule g) None Hd eq_refl eq_refl); [|exact HG|reflexivity|exact O|exact Bz].
        intros h b' w' HH Hr HO Ov N. destruct (N (fun l => l) (fun l => Permutation_refl l)) as (x & Ex & Wx).
        destruct (whole_verdict (fun l => l) b' w' h HH (fun l => Permutation_refl l) Ov HO) as (zb & zw & LB & LW & J). destruct (J (most_points n + 1)%Z ltac:(lia)) as (e & Ee & We).
        rewrite Ee in Ex. injection Ex as <-. rewrite We in Wx. destruct (Z.ltb_spec zb (zw + (most_points n + 1))); [|lia]. apply Wx. reflexivity. }
    assert (Wz : forces dbg n White (won dbg White) (at_komi (z + 1)%Z)) by (apply (won_iff dbg n b w g Hd HG); apply (Up (z + 1)%Z); lia).
    exists z, (rnd (points_in_units z)). destruct (komi_of z ltac:(lia)) as [Vk Uk]. split; [lia|]. split; [exact Vk|]. split; [exact Uk|]. split; [exact Bz|].
    unfold at_komi in Wz. rewrite set_komi_with in Wz |- *. eapply (forces_rule dbg n White _ _ (mkRule (rnd (points_in_units (z + 1))) (flag_illegal (gm_rule g)) (flag_score (gm_rule g))) (mkRule (rnd (points_in_units z)) (flag_illegal (gm_rule g)) (flag_score (gm_rule g))) (gm_rule g) None Hd eq_refl eq_refl); [|exact HG|reflexivity|exact O|exact Wz].
    intros h b' w' HH Hr HO Ov Wn order Ho. destruct (Wn order Ho) as (x & Ex & Wx).
    destruct (whole_verdict order b' w' h HH Ho Ov HO) as (zb & zw & LB & LW & J). destruct (J (z + 1)%Z ltac:(lia)) as (e & Ee & We). destruct (J z ltac:(lia)) as (e' & Ee' & We').
    rewrite Ee in Ex. injection Ex as <-. exists e'. split; [exact Ee'|]. rewrite We in Wx. rewrite We'. cbn [opp].
    destruct (Z.ltb_spec zb (zw + (z + 1))); [|destruct (Z.ltb_spec (zw + (z + 1)) zb); discriminate Wx].
    destruct (Z.ltb_spec zb (zw + z)); [discriminate|]. destruct (Z.ltb_spec (zw + z) zb); [lia|discriminate].
  Qed.
End Whole.

Theorem whole_komi_tall dbg n b w g : Nat.divide (snd n) (fst n) -> rgreach dbg n b w g -> gm_outcome g = None ->
  N.testbit (flag_score (gm_rule g)) 1 = true -> N.testbit (flag_score (gm_rule g)) 2 = false ->
  exists z k, (Z.abs z < 1000000)%Z /\ is_f32 k /\ units k = Some (points_in_units z) /\
    forces dbg n Black (not_lost dbg Black) (set_komi g k) /\ forces dbg n White (not_lost dbg White) (set_komi g k).
Proof.
  intros Hd HG O K Pr. pose proof (most_points_range dbg n b w g Hd HG). destruct (whole_komi dbg n b w g Hd HG O K Pr) as (z & k & L & H'). exists z, k. split; [lia|exact H'].
Qed.

Theorem whole_komi_square dbg n b w g : greach dbg n b w g -> gm_outcome g = None ->
  N.testbit (flag_score (gm_rule g)) 1 = true -> N.testbit (flag_score (gm_rule g)) 2 = false ->
  exists z k, (Z.abs z <= Z.of_nat (n * n))%Z /\ is_f32 k /\ units k = Some (points_in_units z) /\
    forces dbg (n, n) Black (not_lost dbg Black) (set_komi g k) /\ forces dbg (n, n) White (not_lost dbg White) (set_komi g k).
Proof.
  intros HG O K Pr. destruct (whole_komi dbg (n, n) b w g (Nat.divide_refl n) (greach_square _ _ _ _ _ HG) O K Pr) as (z & k & L & H'). exists z, k.
  unfold most_points in L. cbn [fst snd] in L. rewrite Nat.eqb_refl in L. split; [exact L|exact H'].
Qed.

(** ** Komi that is not a number *)

Lemma upto_plain k x : upto k x -> (exists s, x = SpecFloat.S754_zero s) \/ exists s m e, x = SpecFloat.S754_finite s m e.
Proof. intros (_ & u & U & _). destruct x as [s|s| |s m e]; try discriminate U; [left|right]; eauto. Qed.

Theorem odd_komi order dbg n b w g : Nat.divide (snd n) (fst n) -> rgreach dbg n b w g -> (forall l, order l ≡ₚ l) ->
  is_over g = true -> gm_outcome g = None -> N.testbit (flag_score (gm_rule g)) 1 = true ->
  outcome order dbg (set_komi g SpecFloat.S754_nan) = Ok (Some (WinnerByScore White SpecFloat.S754_nan)) /\
  outcome order dbg (set_komi g (SpecFloat.S754_infinity false)) = Ok (Some (WinnerByScore White (SpecFloat.S754_infinity false))) /\
  outcome order dbg (set_komi g (SpecFloat.S754_infinity true)) = Ok (Some (WinnerByScore Black (SpecFloat.S754_infinity false))).
Proof.
  intros Hd HG Ho Ov O K. destruct (core_score dbg n order b w g Hd HG Ho (flag_contains (flag_score (gm_rule g)) PRISONNERS) (flag_contains (flag_score (gm_rule g)) STONES)) as (sb & sw & UB & UW & E).
  assert (X : forall k, calculate_score order dbg (set_komi g k) = Ok (sb, f32_add sw k)).
  { intros k. unfold calculate_score. rewrite set_komi_with. cbn [gm_rule with_rule flag_score]. rewrite (E _ _ eq_refl eq_refl), K. reflexivity. }
  unfold outcome. rewrite !X, !set_komi_over, Ov. cbn [negb gm_outcome set_komi]. rewrite O. cbn [bind].
  destruct (upto_plain _ _ UB) as [[s ->]|(s & m & e & ->)], (upto_plain _ _ UW) as [[s' ->]|(s' & m' & e' & ->)]; repeat split.
Qed.

(** ** The fair komi of a new game is not negative *)

Theorem whole_komi_new dbg n s r g : 1 <= n -> size_of s = (n, n) -> game_new s r = Ok g ->
  N.testbit (flag_score r) 1 = true -> N.testbit (flag_score r) 2 = false ->
  exists z k, (0 <= z <= Z.of_nat (n * n))%Z /\ is_f32 k /\ units k = Some (points_in_units z) /\
    forces dbg (n, n) Black (not_lost dbg Black) (set_komi g k) /\ forces dbg (n, n) White (not_lost dbg White) (set_komi g k).
Proof.
  intros Hn Hs E K Pr. destruct (new_fields _ _ _ _ E Hs) as (_ & _ & _ & O & _ & _ & R).
  assert (HG : greach dbg n 0 0 g) by (eapply gr_new; eassumption). rewrite <- R in K, Pr.
  destruct (whole_komi_square dbg n 0 0 g HG O K Pr) as (z & k & L & V & U & B & W).
  destruct (Z.le_gt_cases 0 z) as [Z0|Z0]; [exists z, k; split; [lia|]; repeat split; assumption|].
  assert (V0 : is_f32 (SpecFloat.S754_zero false)) by reflexivity. assert (U0 : units (SpecFloat.S754_zero false) = Some (points_in_units 0)) by reflexivity.
  exists 0%Z, (SpecFloat.S754_zero false). split; [lia|]. split; [exact V0|]. split; [exact U0|].
  split.
  - set (r0 := mkRule (SpecFloat.S754_zero false) (flag_illegal (gm_rule g)) (flag_score (gm_rule g))).
    assert (E0 : game_new s r0 = Ok (set_komi g (SpecFloat.S754_zero false))).
    { unfold game_new in *. apply bind_ok in E as (gb & Eg & E). rewrite Eg. cbn [bind]. injection E as <-. reflexivity. }
    apply (steal_komi dbg (n, n) s r0 _ 0 (Nat.divide_refl n) Hn Hn Hs E0 V0 eq_refl). lia.
  - refine (proj1 (proj2 (more_komi dbg (n, n) 0 0 g k _ _ _ (Nat.divide_refl n) (greach_square _ _ _ _ _ HG) V V0 U U0 _)) W).
    unfold points_in_units. pose proof (pow2_pos 149 ltac:(lia)). nia.
Qed.
