(** Both builds count alike. *)
From stdpp Require Import relations.
From Verif Require Import PastSpec ScoreSpec Spec Observe Reach Samples Game MonadFacts GameFacts RefuteFacts CaseFacts ClaimFacts.
From Verif Require Import RectSpec RectReach RectCases PastFacts.
From Coq Require Import Lia.
Local Open Scope nat_scope.

Theorem builds_score dbg n b w g order order' flags : greach dbg n b w g -> (forall l, order l ≡ₚ l) -> (forall l, order' l ≡ₚ l) ->
  exists s o, calculate_score_by order true g flags = Ok s /\ calculate_score_by order' false g flags = Ok s /\ outcome order true g = Ok o /\ outcome order' false g = Ok o.
Proof.
  intros HG Ho Ho'. destruct (claim_builds dbg n b w g HG) as (HH & _).
  assert (X : rgreach true (n, n) b w g /\ rgreach false (n, n) b w g) by (destruct dbg; split; apply square_reach; assumption). destruct X as [X Y].
  apply (past_score (n, n) order order' true false b w b w g g flags); [exists 1; cbn; lia|exact X|exact Y|exact Ho|exact Ho'|]. constructor; reflexivity.
Qed.
