(** When a game has no outcome. *)
From Verif Require Import Spec Observe Game MonadFacts ClaimFacts.
From Coq Require Import Lia.
Local Open Scope nat_scope.

Lemma no_outcome_exact order dbg g : (outcome order dbg g = Ok None <-> is_over g = false) /\
  (outcome order dbg g = Ok None <-> gm_outcome g = None /\ gm_passes g < 2).
Proof.
  split; [apply claim_outcome_none|]. rewrite claim_outcome_none. unfold is_over. destruct (gm_outcome g).
  - split; [discriminate|intros [H _]; discriminate].
  - rewrite Nat.leb_gt. split; [auto|intros [_ H]; exact H].
Qed.
