(** When nothing is captured in one order, every order is accepted: C141 *)
From stdpp Require Import relations sorting strings.
From Verif Require Import Spec Reach Ops Observe Samples AreaSpec RectSpec RectReach OrderSpec GameFacts RefuteFacts TightClaims OrderFacts OrderCases FreeFacts FreeCases.
Local Notation length := Datatypes.length.
Open Scope nat_scope.

(** C141: if a list of stones is accepted, captures nothing and leaves every chain with a liberty, then every other order of the same stones is accepted, captures nothing and leads to the same game, under every rule that does not protect eyes. *)
Theorem C141_every_order dbg dbg' n b w b' w' g ms ms' l l' g1 : Nat.divide (snd n) (fst n) -> rgreach dbg n b w g -> rgreach dbg' n b' w' g ->
  (forall x y, MPlay x y ∈ ms -> ron n (x, y)) ->
  laid_stones (gm_turn g) ms = Some l -> laid_stones (gm_turn g) ms' = Some l' -> l ≡ₚ l' ->
  all_accepted dbg g ms g1 -> gm_prisoners g1 = gm_prisoners g -> rall_breathe n (position g1) ->
  gm_ko_point g = None -> forbids_fill_eye (gm_rule g) = false -> (N.of_nat (b' + w' + length ms') < 65535)%N ->
  exists g2, all_accepted dbg' g ms' g2 /\ gm_prisoners g2 = gm_prisoners g /\ same_now n g1 g2.
Proof. exact (free_orders dbg dbg' n b w b' w' g ms ms' l l' g1). Qed.
Print Assumptions C141_every_order.

Example C141_every_order_case dbg dbg' : exists g g1 b w b' w', Nat.divide 4 8 /\ rlreach dbg (8, 4) g /\ rgreach dbg (8, 4) b w g /\ rgreach dbg' (8, 4) b' w' g /\
  (forall x y, MPlay x y ∈ order_ms -> ron (8, 4) (x, y)) /\
  laid_stones (gm_turn g) order_ms = Some [((5, 0), White); ((5, 1), Black); ((6, 0), White)] /\
  laid_stones (gm_turn g) order_ms' = Some [((6, 0), White); ((5, 1), Black); ((5, 0), White)] /\
  [((5, 0), White); ((5, 1), Black); ((6, 0), White)] ≡ₚ [((6, 0), White); ((5, 1), Black); ((5, 0), White)] /\
  all_accepted dbg g order_ms g1 /\ gm_prisoners g1 = gm_prisoners g /\ rall_breathe (8, 4) (position g1) /\
  gm_ko_point g = None /\ forbids_fill_eye (gm_rule g) = false /\ gm_rule g = CHINESE /\ gm_prisoners g <> (0%N, 0%N) /\ b' + w' <= 11.
Proof. exact (case_free dbg dbg'). Qed.

(** C141: in legal games, where every chain has a liberty, nothing need be known about the final position. *)
Theorem C141_legal_games dbg dbg' n b' w' g ms ms' l l' g1 : Nat.divide (snd n) (fst n) -> rlreach dbg n g -> rgreach dbg' n b' w' g ->
  (forall x y, MPlay x y ∈ ms -> ron n (x, y)) ->
  laid_stones (gm_turn g) ms = Some l -> laid_stones (gm_turn g) ms' = Some l' -> l ≡ₚ l' ->
  all_accepted dbg g ms g1 -> gm_prisoners g1 = gm_prisoners g ->
  gm_ko_point g = None -> forbids_fill_eye (gm_rule g) = false -> (N.of_nat (b' + w' + length ms') < 65535)%N ->
  exists g2, all_accepted dbg' g ms' g2 /\ gm_prisoners g2 = gm_prisoners g /\ same_now n g1 g2.
Proof. exact (free_orders_legal dbg dbg' n b' w' g ms ms' l l' g1). Qed.
Print Assumptions C141_legal_games.

Example C141_legal_games_case dbg dbg' : exists g g1 b w b' w', Nat.divide 4 8 /\ rlreach dbg (8, 4) g /\ rgreach dbg (8, 4) b w g /\ rgreach dbg' (8, 4) b' w' g /\
  (forall x y, MPlay x y ∈ order_ms -> ron (8, 4) (x, y)) /\
  laid_stones (gm_turn g) order_ms = Some [((5, 0), White); ((5, 1), Black); ((6, 0), White)] /\
  laid_stones (gm_turn g) order_ms' = Some [((6, 0), White); ((5, 1), Black); ((5, 0), White)] /\
  [((5, 0), White); ((5, 1), Black); ((6, 0), White)] ≡ₚ [((6, 0), White); ((5, 1), Black); ((5, 0), White)] /\
  all_accepted dbg g order_ms g1 /\ gm_prisoners g1 = gm_prisoners g /\ rall_breathe (8, 4) (position g1) /\
  gm_ko_point g = None /\ forbids_fill_eye (gm_rule g) = false /\ gm_rule g = CHINESE /\ gm_prisoners g <> (0%N, 0%N) /\ b' + w' <= 11.
Proof. exact (case_free dbg dbg'). Qed.

(** C141: with eyes protected another order may be refused: its last stone would fill an eye. *)
Theorem C141_protected_eyes_refuted dbg : exists g g1 l l', rgreach dbg (4, 4) 0 0 g /\ gm_rule g = EYES /\
  laid_stones (gm_turn g) eye_first = Some l /\ laid_stones (gm_turn g) eye_last = Some l' /\ l ≡ₚ l' /\
  all_accepted dbg g eye_first g1 /\ gm_prisoners g1 = gm_prisoners g /\ rall_breathe (4, 4) (position g1) /\ gm_ko_point g = None /\
  ~ exists g2, all_accepted dbg g eye_last g2.
Proof. exact (eye_order dbg). Qed.
Print Assumptions C141_protected_eyes_refuted.
