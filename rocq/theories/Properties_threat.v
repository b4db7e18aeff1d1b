(** A ko threat and its answer lift the ban: C145 *)
From stdpp Require Import relations sorting strings.
From Verif Require Import Spec Reach Ops Observe RectSpec RectReach LocalSpec GameFacts RefuteFacts ThreatFacts ThreatCases.
Local Notation length := Datatypes.length.
Open Scope nat_scope.

(** C145: if a stone is refused because of ko, then after a stone of the player elsewhere and an answer elsewhere it is accepted, under every rule without superko and eye protection. *)
Theorem C145_ko_threat dbg n b w g x y xz yz xa ya g0 ga gb : Nat.divide (snd n) (fst n) -> rgreach dbg n b w g -> ron n (x, y) -> ron n (xz, yz) -> ron n (xa, ya) ->
  forbids_fill_eye (gm_rule g) = false -> forbids_superko (gm_rule g) = false -> (N.of_nat (b + w + 2) < 65535)%N ->
  try_play dbg g (MPlay x y) = Ok (g0, Refused EKo) ->
  far_apart n (position g) (xz, yz) (x, y) -> try_play dbg g (MPlay xz yz) = Ok (ga, Accepted) ->
  far_apart n (position ga) (xa, ya) (x, y) -> try_play dbg ga (MPlay xa ya) = Ok (gb, Accepted) ->
  exists g', try_play dbg gb (MPlay x y) = Ok (g', Accepted).
Proof. exact (ko_threat dbg n b w g x y xz yz xa ya g0 ga gb). Qed.
Print Assumptions C145_ko_threat.

Example C145_ko_threat_case dbg : exists g b w g0 ga gb, Nat.divide 4 8 /\ rgreach dbg (8, 4) b w g /\ ron (8, 4) (1, 1) /\ ron (8, 4) (6, 1) /\ ron (8, 4) (7, 1) /\
  forbids_fill_eye (gm_rule g) = false /\ forbids_superko (gm_rule g) = false /\ (N.of_nat (b + w + 2) < 65535)%N /\
  try_play dbg g (MPlay 1 1) = Ok (g0, Refused EKo) /\
  far_apart (8, 4) (position g) (6, 1) (1, 1) /\ try_play dbg g (MPlay 6 1) = Ok (ga, Accepted) /\
  far_apart (8, 4) (position ga) (7, 1) (1, 1) /\ try_play dbg ga (MPlay 7 1) = Ok (gb, Accepted).
Proof. exact (case_threat dbg). Qed.
