(** Both builds count alike: C09 *)
From stdpp Require Import relations sorting strings.
From Verif Require Import Spec Reach Ops Observe ScoreSpec GameFacts RefuteFacts CaseFacts BuildsFacts.
Local Notation length := Datatypes.length.
Open Scope nat_scope.

(** C09: the debug build and the release build compute the same score for every choice of what is counted, and the same outcome, whatever the iteration orders of their hash sets. *)
Theorem C09_scores_agree dbg n b w g order order' flags : greach dbg n b w g -> (forall l, order l ≡ₚ l) -> (forall l, order' l ≡ₚ l) ->
  exists s o, calculate_score_by order true g flags = Ok s /\ calculate_score_by order' false g flags = Ok s /\ outcome order true g = Ok o /\ outcome order' false g = Ok o.
Proof. exact (builds_score dbg n b w g order order' flags). Qed.
Print Assumptions C09_scores_agree.

Example C09_scores_agree_case dbg : exists g b w,
  greach dbg 3 b w g /\ gm_passes g = 2 /\ gm_outcome g = None /\ is_f32 (komi g) /\ halves (komi g) 13 /\ (Z.abs 13 <= 200000)%Z /\
  (fst (gm_prisoners g) < 1000000)%N /\ (snd (gm_prisoners g) < 1000000)%N /\
  outcome (fun l => l) dbg g = Ok (Some (WinnerByScore Black (f32_make 3 (-1)))).
Proof. exact (case_paused dbg). Qed.
