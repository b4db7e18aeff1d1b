(** Stones that are far apart may be exchanged: C144 *)
From stdpp Require Import relations sorting strings.
From Verif Require Import Spec Reach Ops Observe AreaSpec RectSpec RectReach RectVerdictSpec LocalSpec GameFacts RefuteFacts FarFacts FarCases FarThree ThreeCases.
Local Notation length := Datatypes.length.
Open Scope nat_scope.

(** C144: two stones of one player with a pass of the other in between, far apart from each other, can be played in the other order, also when they capture, and lead to the same position, prisoners and side to move, under every rule without superko and eye protection. *)
Theorem C144_far_stones_exchange dbg n b w g x y x' y' g1 : Nat.divide (snd n) (fst n) -> rgreach dbg n b w g -> ron n (x, y) -> ron n (x', y') ->
  far_apart n (position g) (x, y) (x', y') -> gm_ko_point g = None -> forbids_fill_eye (gm_rule g) = false -> forbids_superko (gm_rule g) = false ->
  (N.of_nat (b + w + 2) < 65535)%N -> all_accepted dbg g [MPlay x y; MPass; MPlay x' y'] g1 ->
  exists g2, all_accepted dbg g [MPlay x' y'; MPass; MPlay x y] g2 /\ (forall r, ron n r -> position g1 r = position g2 r) /\ gm_prisoners g1 = gm_prisoners g2 /\
    gm_turn g1 = gm_turn g2 /\ gm_passes g1 = gm_passes g2 /\ gm_outcome g1 = gm_outcome g2 /\ gm_rule g1 = gm_rule g2.
Proof. exact (far_exchange dbg n b w g x y x' y' g1). Qed.
Print Assumptions C144_far_stones_exchange.

Example C144_far_stones_exchange_case dbg : exists g g1 b w, Nat.divide 4 8 /\ rgreach dbg (8, 4) b w g /\ ron (8, 4) (0, 1) /\ ron (8, 4) (7, 2) /\
  far_apart (8, 4) (position g) (0, 1) (7, 2) /\ gm_ko_point g = None /\ forbids_fill_eye (gm_rule g) = false /\ forbids_superko (gm_rule g) = false /\
  (N.of_nat (b + w + 2) < 65535)%N /\ all_accepted dbg g far_line g1 /\ gm_prisoners g = (0%N, 0%N) /\ gm_prisoners g1 = (2%N, 0%N).
Proof. exact (case_far dbg). Qed.

(** C144: the same with a stone of the other player instead of the pass, far from both. *)
Theorem C144_exchange_around_a_stone dbg n b w g xp yp xz yz xq yq g1 : Nat.divide (snd n) (fst n) -> rgreach dbg n b w g -> ron n (xp, yp) -> ron n (xz, yz) -> ron n (xq, yq) ->
  far_apart n (position g) (xp, yp) (xz, yz) -> far_apart n (position g) (xp, yp) (xq, yq) -> far_apart n (position g) (xz, yz) (xq, yq) ->
  gm_ko_point g = None -> forbids_fill_eye (gm_rule g) = false -> forbids_superko (gm_rule g) = false ->
  (N.of_nat (b + w + 3) < 65535)%N -> all_accepted dbg g [MPlay xp yp; MPlay xz yz; MPlay xq yq] g1 ->
  exists g2, all_accepted dbg g [MPlay xq yq; MPlay xz yz; MPlay xp yp] g2 /\ (forall r, ron n r -> position g1 r = position g2 r) /\ gm_prisoners g1 = gm_prisoners g2 /\
    gm_turn g1 = gm_turn g2 /\ gm_passes g1 = gm_passes g2 /\ gm_outcome g1 = gm_outcome g2 /\ gm_rule g1 = gm_rule g2.
Proof. exact (three_exchange dbg n b w g xp yp xz yz xq yq g1). Qed.
Print Assumptions C144_exchange_around_a_stone.

Example C144_exchange_around_a_stone_case dbg : exists g g1 b w, Nat.divide 4 8 /\ rgreach dbg (8, 4) b w g /\ ron (8, 4) (0, 1) /\ ron (8, 4) (3, 1) /\ ron (8, 4) (7, 2) /\
  far_apart (8, 4) (position g) (0, 1) (3, 1) /\ far_apart (8, 4) (position g) (0, 1) (7, 2) /\ far_apart (8, 4) (position g) (3, 1) (7, 2) /\
  gm_ko_point g = None /\ forbids_fill_eye (gm_rule g) = false /\ forbids_superko (gm_rule g) = false /\
  (N.of_nat (b + w + 3) < 65535)%N /\ all_accepted dbg g three_line g1 /\ gm_prisoners g = (0%N, 0%N) /\ gm_prisoners g1 = (2%N, 0%N).
Proof. exact (case_three dbg). Qed.

(** C144: a stone and a pass do not change any verdict on a stone of the same player far away; under superko that stone must not capture. *)
Theorem C144_far_verdicts dbg n b w g x y x' y' g1 v : Nat.divide (snd n) (fst n) -> rgreach dbg n b w g -> ron n (x, y) -> ron n (x', y') ->
  far_apart n (position g) (x, y) (x', y') -> position g (x', y') = None -> gm_ko_point g <> Some (x', y') ->
  forbids_fill_eye (gm_rule g) = false -> forbids_superko (gm_rule g) = false \/ ~ rcaptures n (position g) (x', y') (gm_turn g) ->
  (N.of_nat (b + w + 1) < 65535)%N -> all_accepted dbg g [MPlay x y; MPass] g1 ->
  (exists h, try_play dbg g (MPlay x' y') = Ok (h, v)) <-> (exists h, try_play dbg g1 (MPlay x' y') = Ok (h, v)).
Proof. exact (far_verdict dbg n b w g x y x' y' g1 v). Qed.
Print Assumptions C144_far_verdicts.

Example C144_far_verdicts_case dbg : exists g g1 b w, Nat.divide 4 8 /\ rgreach dbg (8, 4) b w g /\ ron (8, 4) (0, 1) /\ ron (8, 4) (7, 2) /\
  far_apart (8, 4) (position g) (0, 1) (7, 2) /\ position g (7, 2) = None /\ gm_ko_point g <> Some (7, 2) /\
  forbids_fill_eye (gm_rule g) = false /\ (forbids_superko (gm_rule g) = false \/ ~ rcaptures (8, 4) (position g) (7, 2) (gm_turn g)) /\
  (N.of_nat (b + w + 1) < 65535)%N /\ all_accepted dbg g [MPlay 0 1; MPass] g1 /\ exists h, try_play dbg g1 (MPlay 7 2) = Ok (h, Accepted).
Proof. exact (case_far_verdict dbg). Qed.

(** C144: not so when they are close: the second stone may be a suicide without the first. *)
Theorem C144_close_stones_refuted dbg : exists g g1 g2 b w, rgreach dbg (8, 4) b w g /\ gm_ko_point g = None /\ forbids_fill_eye (gm_rule g) = false /\ forbids_superko (gm_rule g) = false /\
  position g (2, 0) = None /\ position g (0, 0) = None /\
  all_accepted dbg g [MPlay 2 0; MPass; MPlay 0 0] g1 /\ try_play dbg g (MPlay 0 0) = Ok (g2, Refused ESuicide).
Proof. exact (case_close dbg). Qed.
Print Assumptions C144_close_stones_refuted.
