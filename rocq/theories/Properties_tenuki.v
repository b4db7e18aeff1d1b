(** For a local fight a stone elsewhere is as good as a pass: C146 *)
From stdpp Require Import relations sorting strings.
From Verif Require Import Spec Reach Ops Observe RectSpec RectReach RectVerdictSpec LocalSpec GameFacts RefuteFacts TenukiFacts TenukiCases.
Local Notation length := Datatypes.length.
Open Scope nat_scope.

(** C146: a stone of the other player gets the same verdict after a pass as after a stone far away from it, under every rule without eye protection; under superko it must not capture. *)
Theorem C146_stone_elsewhere_verdict dbg n b w g x y x' y' gp ga v : Nat.divide (snd n) (fst n) -> rgreach dbg n b w g -> ron n (x, y) -> ron n (x', y') ->
  far_apart n (position g) (x, y) (x', y') -> gm_passes g = 0 -> try_play dbg g MPass = Ok (gp, Accepted) -> try_play dbg g (MPlay x y) = Ok (ga, Accepted) ->
  position g (x', y') = None -> forbids_fill_eye (gm_rule g) = false ->
  forbids_superko (gm_rule g) = false \/ ~ rcaptures n (position g) (x', y') (opp (gm_turn g)) -> (N.of_nat (b + w + 1) < 65535)%N ->
  (exists h, try_play dbg gp (MPlay x' y') = Ok (h, v)) <-> (exists h, try_play dbg ga (MPlay x' y') = Ok (h, v)).
Proof. exact (elsewhere_verdict dbg n b w g x y x' y' gp ga v). Qed.
Print Assumptions C146_stone_elsewhere_verdict.

Example C146_stone_elsewhere_verdict_case dbg : exists g b w gp ga hp ha, Nat.divide 4 8 /\ rgreach dbg (8, 4) b w g /\ ron (8, 4) (7, 2) /\ ron (8, 4) (0, 1) /\
  far_apart (8, 4) (position g) (7, 2) (0, 1) /\ gm_passes g = 0 /\ try_play dbg g MPass = Ok (gp, Accepted) /\ try_play dbg g (MPlay 7 2) = Ok (ga, Accepted) /\
  position g (0, 1) = None /\ forbids_fill_eye (gm_rule g) = false /\
  (forbids_superko (gm_rule g) = false \/ ~ rcaptures (8, 4) (position g) (0, 1) (opp (gm_turn g))) /\ (N.of_nat (b + w + 1) < 65535)%N /\
  try_play dbg gp (MPlay 0 1) = Ok (hp, Accepted) /\ try_play dbg ga (MPlay 0 1) = Ok (ha, Accepted) /\ position g (0, 0) = Some White /\ position ha (0, 0) = None.
Proof. exact (case_tenuki dbg). Qed.

(** C146: if it is accepted after both, it has the same effect in both games, under every rule. *)
Theorem C146_stone_elsewhere_effect dbg n b w g x y x' y' gp ga hp ha r : Nat.divide (snd n) (fst n) -> rgreach dbg n b w g -> ron n (x, y) -> ron n (x', y') ->
  far_apart n (position g) (x, y) (x', y') -> gm_passes g = 0 -> try_play dbg g MPass = Ok (gp, Accepted) -> try_play dbg g (MPlay x y) = Ok (ga, Accepted) ->
  try_play dbg gp (MPlay x' y') = Ok (hp, Accepted) -> try_play dbg ga (MPlay x' y') = Ok (ha, Accepted) -> ron n r ->
  (near n (position g) (x', y') r -> position hp r = position ha r) /\
  (~ near n (position g) (x', y') r -> position hp r = position g r /\ position ha r = position ga r).
Proof. exact (elsewhere_effect dbg n b w g x y x' y' gp ga hp ha r). Qed.
Print Assumptions C146_stone_elsewhere_effect.

Example C146_stone_elsewhere_effect_case dbg : exists g b w gp ga hp ha, Nat.divide 4 8 /\ rgreach dbg (8, 4) b w g /\ ron (8, 4) (7, 2) /\ ron (8, 4) (0, 1) /\
  far_apart (8, 4) (position g) (7, 2) (0, 1) /\ gm_passes g = 0 /\ try_play dbg g MPass = Ok (gp, Accepted) /\ try_play dbg g (MPlay 7 2) = Ok (ga, Accepted) /\
  position g (0, 1) = None /\ forbids_fill_eye (gm_rule g) = false /\
  (forbids_superko (gm_rule g) = false \/ ~ rcaptures (8, 4) (position g) (0, 1) (opp (gm_turn g))) /\ (N.of_nat (b + w + 1) < 65535)%N /\
  try_play dbg gp (MPlay 0 1) = Ok (hp, Accepted) /\ try_play dbg ga (MPlay 0 1) = Ok (ha, Accepted) /\ position g (0, 0) = Some White /\ position ha (0, 0) = None.
Proof. exact (case_tenuki dbg). Qed.
