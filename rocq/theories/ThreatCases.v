(** A concrete ko threat. *)
From stdpp Require Import relations.
From Verif Require Import LocalSpec OrderSpec Spec Observe Reach Ops Samples Game MonadFacts GameFacts RefuteFacts CaseFacts.
From Verif Require Import RectBridge RectSpec RectReach RectGo RectInv RectGame RectLegal RectLegalClaims RectSymFacts RectSymClaims RectReachFacts RectVerdict PastFacts PastCases OrderFacts OrderCases FreeFacts TightClaims RectCases LocalFacts FarFacts FarThree ThreatFacts.
From Coq Require Import Lia.
Local Notation length := Datatypes.length.
Local Open Scope nat_scope.

Definition gap (P : pos) : bool := forallb (fun q => implb ((fst q =? 4) || (fst q =? 5)) (bool_decide (P q = None))) (rpoints (8, 4)).

Lemma gap_far P x y x' y' : x <= 3 -> 6 <= x' -> gap P = true -> far_apart (8, 4) P (x', y') (x, y).
Proof.
  intros X X'. unfold gap. rewrite forallb_forall. intros H.
  assert (H2 : forall q, ron (8, 4) q -> fst q = 4 \/ fst q = 5 -> P q = None).
  { intros q Hq L. assert (I : In q (rpoints (8, 4))) by (destruct q; apply in_prod; apply in_seq; unfold ron in Hq; cbn in *; lia).
    apply H in I. rewrite (proj2 (orb_true_iff _ _)) in I by (rewrite !Nat.eqb_eq; exact L). apply bool_decide_eq_true in I. exact I. }
  assert (U : forall t a, P t <> None -> fst t <= 3 -> rconnected (8, 4) P t a -> fst a <= 3).
  { intros t a N L C. unfold rconnected in C. induction C as [|t u a (A1 & A2 & A3 & A4) _ IH]; [exact L|]. apply IH; [congruence|].
    assert (fst u <> 4) by (intros F; apply N; rewrite A4; apply (H2 u A2); left; exact F). unfold adj in A3. lia. }
  assert (D : forall t a, P t <> None -> 6 <= fst t -> rconnected (8, 4) P t a -> 6 <= fst a).
  { intros t a N L C. unfold rconnected in C. induction C as [|t u a (A1 & A2 & A3 & A4) _ IH]; [exact L|]. apply IH; [congruence|].
    assert (fst u <> 5) by (intros F; apply N; rewrite A4; apply (H2 u A2); right; exact F). unfold adj in A3. lia. }
  intros r Hr M N. assert (fst r <= 4).
  { destruct N as [->|[A|(t & a & Ht & A & N & C & K)]]; [cbn; lia|unfold adj in A; cbn in A; lia|].
    assert (fst t <> 4) by (intros F; apply N, H2; [exact Ht|left; exact F]).
    assert (L : fst a <= 3) by (apply (U t a N); [unfold adj in A; cbn in A; lia|exact C]). destruct K as [->|K]; [lia|]. unfold adj in K. lia. }
  assert (5 <= fst r); [|lia].
  destruct M as [->|[A|(t & a & Ht & A & M & C & K)]]; [cbn; lia|unfold adj in A; cbn in A; lia|].
  assert (fst t <> 5) by (intros F; apply M, H2; [exact Ht|right; exact F]).
  assert (L : 6 <= fst a) by (apply (D t a M); [unfold adj in A; cbn in A; lia|exact C]). destruct K as [->|K]; [lia|]. unfold adj in K. lia.
Qed.

Lemma case_threat dbg : exists g b w g0 ga gb, Nat.divide 4 8 /\ rgreach dbg (8, 4) b w g /\ ron (8, 4) (1, 1) /\ ron (8, 4) (6, 1) /\ ron (8, 4) (7, 1) /\
  forbids_fill_eye (gm_rule g) = false /\ forbids_superko (gm_rule g) = false /\ (N.of_nat (b + w + 2) < 65535)%N /\
  try_play dbg g (MPlay 1 1) = Ok (g0, Refused EKo) /\
  far_apart (8, 4) (position g) (6, 1) (1, 1) /\ try_play dbg g (MPlay 6 1) = Ok (ga, Accepted) /\
  far_apart (8, 4) (position ga) (7, 1) (1, 1) /\ try_play dbg ga (MPlay 7 1) = Ok (gb, Accepted).
Proof.
  assert (F : match rsample dbg 8 4 JAPANESE ko_moves with
     | Some g => match try_play dbg g (MPlay 1 1), try_play dbg g (MPlay 6 1) with
         | Ok (_, Refused EKo), Ok (ga, Accepted) => match try_play dbg ga (MPlay 7 1) with Ok (_, Accepted) => gap (position g) && gap (position ga) | _ => false end
         | _, _ => false end
     | None => false end = true) by (destruct dbg; vm_compute; reflexivity).
  assert (R : match rsample dbg 8 4 JAPANESE ko_moves with Some g => gm_rule g = JAPANESE | None => False end) by (destruct dbg; vm_compute; reflexivity).
  destruct (rsample dbg 8 4 JAPANESE ko_moves) as [g|] eqn:T; [|discriminate].
  destruct (try_play dbg g (MPlay 1 1)) as [[g0 [|[]]]| |] eqn:E0; try discriminate. destruct (try_play dbg g (MPlay 6 1)) as [[ga [|e]]| |] eqn:E1; try discriminate.
  destruct (try_play dbg ga (MPlay 7 1)) as [[gb [|e]]| |] eqn:E2; try discriminate. apply andb_true_iff in F as [F1 F2].
  destruct (rsample_reach dbg 8 4 JAPANESE _ g ltac:(lia) ltac:(lia) T) as (b & w & HG & L). cbn [length ko_moves] in L.
  exists g, b, w, g0, ga, gb. split; [exists 2; reflexivity|]. split; [exact HG|]. split; [split; cbn; lia|]. split; [split; cbn; lia|]. split; [split; cbn; lia|].
  rewrite R. split; [reflexivity|]. split; [reflexivity|]. split; [lia|]. split; [exact E0|]. split; [apply gap_far; [lia|lia|exact F1]|]. split; [exact E1|]. split; [apply gap_far; [lia|lia|exact F2]|exact E2].
Qed.
