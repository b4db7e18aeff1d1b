(** A stone depends only on its neighbourhood: C143 *)
From stdpp Require Import relations sorting strings.
From Verif Require Import Spec Reach Ops Observe RectSpec RectReach RectVerdictSpec LocalSpec GameFacts RefuteFacts LocalFacts LocalCases.
Local Notation length := Datatypes.length.
Open Scope nat_scope.

(** C143: two games that cannot be told apart near an empty point give the same verdict on a stone there, whatever stands on the rest of the board. Where eyes are protected, the points at most two rows and columns away count as well; under superko the stone must not capture. *)
Theorem C143_same_verdict dbg dbg' n b w b' w' g h x y v : Nat.divide (snd n) (fst n) -> rgreach dbg n b w g -> rgreach dbg' n b' w' h -> ron n (x, y) ->
  ~ no_slot_left g -> ~ no_slot_left h -> position g (x, y) = None -> alike_near n (x, y) (position g) (position h) ->
  gm_turn h = gm_turn g -> gm_rule h = gm_rule g -> (gm_passes g = 2 <-> gm_passes h = 2) -> (gm_ko_point g = Some (x, y) <-> gm_ko_point h = Some (x, y)) ->
  forbids_fill_eye (gm_rule g) = false \/ (forall q, ron n q -> within_two (x, y) q -> position g q = position h q) ->
  forbids_superko (gm_rule g) = false \/ ~ rcaptures n (position g) (x, y) (gm_turn g) ->
  (exists g', try_play dbg g (MPlay x y) = Ok (g', v)) <-> (exists h', try_play dbg' h (MPlay x y) = Ok (h', v)).
Proof. exact (local_verdict dbg dbg' n b w b' w' g h x y v). Qed.
Print Assumptions C143_same_verdict.

Example C143_same_verdict_case dbg dbg' : exists g h g' h' b w b' w', Nat.divide 4 8 /\ rgreach dbg (8, 4) b w g /\ rgreach dbg' (8, 4) b' w' h /\ ron (8, 4) (0, 1) /\
  ~ no_slot_left g /\ ~ no_slot_left h /\ position g (0, 1) = None /\ alike_near (8, 4) (0, 1) (position g) (position h) /\
  gm_turn h = gm_turn g /\ gm_rule h = gm_rule g /\ (gm_passes g = 2 <-> gm_passes h = 2) /\ (gm_ko_point g = Some (0, 1) <-> gm_ko_point h = Some (0, 1)) /\
  (forbids_fill_eye (gm_rule g) = false \/ (forall q, ron (8, 4) q -> within_two (0, 1) q -> position g q = position h q)) /\
  (forbids_superko (gm_rule g) = false \/ ~ rcaptures (8, 4) (position g) (0, 1) (gm_turn g)) /\
  try_play dbg g (MPlay 0 1) = Ok (g', Accepted) /\ try_play dbg' h (MPlay 0 1) = Ok (h', Accepted) /\
  position g (0, 0) = Some White /\ position g' (0, 0) = None /\ position g (7, 3) <> position h (7, 3).
Proof. exact (case_local dbg dbg'). Qed.

Example C143_same_verdict_case2 dbg dbg' : exists g h b w b' w', Nat.divide 4 8 /\ rgreach dbg (8, 4) b w g /\ rgreach dbg' (8, 4) b' w' h /\ ron (8, 4) (0, 2) /\
  ~ no_slot_left g /\ ~ no_slot_left h /\ position g (0, 2) = None /\ alike_near (8, 4) (0, 2) (position g) (position h) /\
  gm_turn h = gm_turn g /\ gm_rule h = gm_rule g /\ (gm_passes g = 2 <-> gm_passes h = 2) /\ (gm_ko_point g = Some (0, 2) <-> gm_ko_point h = Some (0, 2)) /\
  (forbids_fill_eye (gm_rule g) = false \/ (forall q, ron (8, 4) q -> within_two (0, 2) q -> position g q = position h q)) /\
  (forbids_superko (gm_rule g) = false \/ ~ rcaptures (8, 4) (position g) (0, 2) (gm_turn g)) /\
  forbids_fill_eye (gm_rule g) = true /\ forbids_superko (gm_rule g) = true /\ length (gm_history g) = 4 /\ position g (7, 3) <> position h (7, 3).
Proof. exact (case_local_strict dbg dbg'). Qed.

(** C143: if both accept the stone, the boards are alike near it afterwards, and elsewhere nothing has changed, under every rule. *)
Theorem C143_same_effect dbg dbg' n b w b' w' g h x y g' h' : Nat.divide (snd n) (fst n) -> rgreach dbg n b w g -> rgreach dbg' n b' w' h -> ron n (x, y) ->
  alike_near n (x, y) (position g) (position h) -> gm_turn h = gm_turn g -> gm_rule h = gm_rule g ->
  try_play dbg g (MPlay x y) = Ok (g', Accepted) -> try_play dbg' h (MPlay x y) = Ok (h', Accepted) ->
  forall q, ron n q -> (near n (position g) (x, y) q -> position g' q = position h' q) /\
    (~ near n (position g) (x, y) q -> position g' q = position g q /\ position h' q = position h q).
Proof. exact (local_effect dbg dbg' n b w b' w' g h x y g' h'). Qed.
Print Assumptions C143_same_effect.

Example C143_same_effect_case dbg dbg' : exists g h g' h' b w b' w', Nat.divide 4 8 /\ rgreach dbg (8, 4) b w g /\ rgreach dbg' (8, 4) b' w' h /\ ron (8, 4) (0, 1) /\
  ~ no_slot_left g /\ ~ no_slot_left h /\ position g (0, 1) = None /\ alike_near (8, 4) (0, 1) (position g) (position h) /\
  gm_turn h = gm_turn g /\ gm_rule h = gm_rule g /\ (gm_passes g = 2 <-> gm_passes h = 2) /\ (gm_ko_point g = Some (0, 1) <-> gm_ko_point h = Some (0, 1)) /\
  (forbids_fill_eye (gm_rule g) = false \/ (forall q, ron (8, 4) q -> within_two (0, 1) q -> position g q = position h q)) /\
  (forbids_superko (gm_rule g) = false \/ ~ rcaptures (8, 4) (position g) (0, 1) (gm_turn g)) /\
  try_play dbg g (MPlay 0 1) = Ok (g', Accepted) /\ try_play dbg' h (MPlay 0 1) = Ok (h', Accepted) /\
  position g (0, 0) = Some White /\ position g' (0, 0) = None /\ position g (7, 3) <> position h (7, 3).
Proof. exact (case_local dbg dbg'). Qed.
