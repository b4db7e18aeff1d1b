(** A concrete case of a stone elsewhere. *)
From stdpp Require Import relations.
From Verif Require Import LocalSpec OrderSpec Spec Observe Reach Ops Samples Game MonadFacts GameFacts RefuteFacts CaseFacts.
From Verif Require Import RectBridge RectSpec RectReach RectGo RectInv RectGame RectLegal RectLegalClaims RectSymFacts RectSymClaims RectReachFacts RectVerdictSpec RectVerdict PastFacts PastCases OrderFacts OrderCases FreeFacts TightClaims RectCases LocalFacts FarFacts FarCases FarThree TenukiFacts.
From Coq Require Import Lia.
Local Notation length := Datatypes.length.
Local Open Scope nat_scope.

(** a white stone with one liberty left, White to move *)
Definition tenuki_moves : list move := [MPlay 1 0; MPlay 0 0; MPlay 6 3].

Lemma case_tenuki dbg : exists g b w gp ga hp ha, Nat.divide 4 8 /\ rgreach dbg (8, 4) b w g /\ ron (8, 4) (7, 2) /\ ron (8, 4) (0, 1) /\
  far_apart (8, 4) (position g) (7, 2) (0, 1) /\ gm_passes g = 0 /\ try_play dbg g MPass = Ok (gp, Accepted) /\ try_play dbg g (MPlay 7 2) = Ok (ga, Accepted) /\
  position g (0, 1) = None /\ forbids_fill_eye (gm_rule g) = false /\
  (forbids_superko (gm_rule g) = false \/ ~ rcaptures (8, 4) (position g) (0, 1) (opp (gm_turn g))) /\ (N.of_nat (b + w + 1) < 65535)%N /\
  try_play dbg gp (MPlay 0 1) = Ok (hp, Accepted) /\ try_play dbg ga (MPlay 0 1) = Ok (ha, Accepted) /\ position g (0, 0) = Some White /\ position ha (0, 0) = None.
Proof.
  assert (F : match rsample dbg 8 4 JAPANESE tenuki_moves with
     | Some g => match try_play dbg g MPass, try_play dbg g (MPlay 7 2) with
         | Ok (gp, Accepted), Ok (ga, Accepted) => match try_play dbg gp (MPlay 0 1), try_play dbg ga (MPlay 0 1) with
             | Ok (_, Accepted), Ok (ha, Accepted) => middle_empty (position g) && bool_decide (gm_passes g = 0) && bool_decide (position g (0, 1) = None) && bool_decide (position g (0, 0) = Some White) && bool_decide (position ha (0, 0) = None)
             | _, _ => false end
         | _, _ => false end
     | None => false end = true) by (destruct dbg; vm_compute; reflexivity).
  assert (R : match rsample dbg 8 4 JAPANESE tenuki_moves with Some g => gm_rule g = JAPANESE | None => False end) by (destruct dbg; vm_compute; reflexivity).
  destruct (rsample dbg 8 4 JAPANESE tenuki_moves) as [g|] eqn:T; [|discriminate].
  destruct (try_play dbg g MPass) as [[gp [|e]]| |] eqn:E0; try discriminate. destruct (try_play dbg g (MPlay 7 2)) as [[ga [|e]]| |] eqn:E1; try discriminate.
  destruct (try_play dbg gp (MPlay 0 1)) as [[hp [|e]]| |] eqn:E2; try discriminate. destruct (try_play dbg ga (MPlay 0 1)) as [[ha [|e]]| |] eqn:E3; try discriminate.
  rewrite !andb_true_iff, !bool_decide_eq_true in F. destruct F as [[[[F1 F2] F3] F4] F5].
  destruct (rsample_reach dbg 8 4 JAPANESE _ g ltac:(lia) ltac:(lia) T) as (b & w & HG & L). cbn [length tenuki_moves] in L.
  exists g, b, w, gp, ga, hp, ha. split; [exists 2; reflexivity|]. split; [exact HG|]. split; [split; cbn; lia|]. split; [split; cbn; lia|]. split; [apply far_sym, middle_far, F1|].
  split; [exact F2|]. split; [exact E0|]. split; [exact E1|]. split; [exact F3|]. rewrite R. split; [reflexivity|]. split; [left; reflexivity|]. split; [lia|].
  split; [exact E2|]. split; [exact E3|]. split; assumption.
Qed.
