(** For a local fight a stone elsewhere is as good as a pass. *)
From stdpp Require Import relations.
From Verif Require Import LocalSpec OrderSpec VerdictSpec.
From Verif Require Import MonadFacts Spec Game Builder Struct Push Inv Remove Capture Bridge GameFacts RulesFacts LegalFacts LegalsFacts CheckFacts ClaimFacts LongFacts SymFacts SymGame SymScore ScoreFacts ReprFacts RectCount RectCoord RectBridge RectRules RectKo RectBoard RectCheck RectEye RectVerdict.
From Verif Require Import RectScore RectSpec RectReach RectVerdictSpec RectTableSpec RectInv RectGame RectMoves RectLegal RectTable RectReachFacts RectSymFacts RectSymGame RectSymClaims RectCases PastFacts OrderFacts VerdictFacts LocalFacts FarFacts FarThree.
From Coq Require Import Lia.

Local Notation length := Datatypes.length.
Local Open Scope nat_scope.

Section Tenuki.
  Context (dbg : bool) (n : nat * nat) (b w : nat) (g : game) (x y x' y' : nat) (gp ga : game).
  Hypothesis Hd : Nat.divide (snd n) (fst n).
  Hypothesis HG : rgreach dbg n b w g.
  Hypothesis Hp : ron n (x, y).
  Hypothesis Hq : ron n (x', y').
  Hypothesis F : far_apart n (position g) (x, y) (x', y').
  Hypothesis Ps : gm_passes g = 0.
  Hypothesis Epp : try_play dbg g MPass = Ok (gp, Accepted).
  Hypothesis Ea : try_play dbg g (MPlay x y) = Ok (ga, Accepted).

  Lemma tenuki_verdict v : position g (x', y') = None -> forbids_fill_eye (gm_rule g) = false ->
    forbids_superko (gm_rule g) = false \/ ~ rcaptures n (position g) (x', y') (opp (gm_turn g)) -> (N.of_nat (b + w + 1) < 65535)%N ->
    (exists h, try_play dbg gp (MPlay x' y') = Ok (h, v)) <-> (exists h, try_play dbg ga (MPlay x' y') = Ok (h, v)).
  Proof using All.
    intros Eq Fe Fs L. destruct (stone_facts dbg n b w g x y ga Hd HG Hp Ea) as (Ep & HGa & M1 & _ & Pa & _ & Ta & Ra).
    destruct (pass_facts dbg n _ _ g HG Ps) as (gp' & E' & HGp & Pp & Psp & Op & Tp & Rp & Kp). rewrite E' in Epp. injection Epp as ->.
    apply (local_verdict dbg dbg n b w _ _ gp ga x' y' v Hd HGp HGa Hq (rfew dbg n b w gp Hd HGp ltac:(lia)) (rfew dbg n _ _ ga Hd HGa ltac:(destruct (gm_turn g); cbn [bump_count fst snd]; lia))).
    - rewrite Pp. exact Eq.
    - rewrite Pp. exact (far_alike _ _ _ _ _ _ _ Hp Ep M1 F).
    - congruence.
    - congruence.
    - rewrite Psp, Pa. lia.
    - rewrite Kp. split; [discriminate|]. intros X. exfalso. destruct (ko_near dbg n _ _ g x y ga _ Hd HG Hp Ea X) as [_ N]. apply (F (x', y') Hq N). left. reflexivity.
    - left. congruence.
    - rewrite Rp, Pp, Tp. exact Fs.
  Qed.

  (** if the stone is accepted after both, it does the same *)
  Lemma tenuki_effect hp ha r : try_play dbg gp (MPlay x' y') = Ok (hp, Accepted) -> try_play dbg ga (MPlay x' y') = Ok (ha, Accepted) -> ron n r ->
    (near n (position g) (x', y') r -> position hp r = position ha r) /\
    (~ near n (position g) (x', y') r -> position hp r = position g r /\ position ha r = position ga r).
  Proof using All.
    intros E1 E2 Hr. destruct (stone_facts dbg n b w g x y ga Hd HG Hp Ea) as (Ep & HGa & M1 & _ & Pa & _ & Ta & Ra).
    destruct (pass_facts dbg n _ _ g HG Ps) as (gp' & E' & HGp & Pp & Psp & Op & Tp & Rp & Kp). rewrite E' in Epp. injection Epp as ->.
    rewrite <- Pp. apply (local_effect dbg dbg n b w _ _ gp ga x' y' hp ha Hd HGp HGa Hq); try assumption; try congruence.
    rewrite Pp. exact (far_alike _ _ _ _ _ _ _ Hp Ep M1 F).
  Qed.
End Tenuki.

Theorem elsewhere_verdict dbg n b w g x y x' y' gp ga v : Nat.divide (snd n) (fst n) -> rgreach dbg n b w g -> ron n (x, y) -> ron n (x', y') ->
  far_apart n (position g) (x, y) (x', y') -> gm_passes g = 0 -> try_play dbg g MPass = Ok (gp, Accepted) -> try_play dbg g (MPlay x y) = Ok (ga, Accepted) ->
  position g (x', y') = None -> forbids_fill_eye (gm_rule g) = false ->
  forbids_superko (gm_rule g) = false \/ ~ rcaptures n (position g) (x', y') (opp (gm_turn g)) -> (N.of_nat (b + w + 1) < 65535)%N ->
  (exists h, try_play dbg gp (MPlay x' y') = Ok (h, v)) <-> (exists h, try_play dbg ga (MPlay x' y') = Ok (h, v)).
Proof. intros Hd HG Hp Hq F Ps E1 E2. exact (tenuki_verdict dbg n b w g x y x' y' gp ga Hd HG Hp Hq F Ps E1 E2 v). Qed.

Theorem elsewhere_effect dbg n b w g x y x' y' gp ga hp ha r : Nat.divide (snd n) (fst n) -> rgreach dbg n b w g -> ron n (x, y) -> ron n (x', y') ->
  far_apart n (position g) (x, y) (x', y') -> gm_passes g = 0 -> try_play dbg g MPass = Ok (gp, Accepted) -> try_play dbg g (MPlay x y) = Ok (ga, Accepted) ->
  try_play dbg gp (MPlay x' y') = Ok (hp, Accepted) -> try_play dbg ga (MPlay x' y') = Ok (ha, Accepted) -> ron n r ->
  (near n (position g) (x', y') r -> position hp r = position ha r) /\
  (~ near n (position g) (x', y') r -> position hp r = position g r /\ position ha r = position ga r).
Proof. intros Hd HG Hp Hq F Ps E1 E2. exact (tenuki_effect dbg n b w g x y x' y' gp ga Hd HG Hp Hq F Ps E1 E2 hp ha r). Qed.
