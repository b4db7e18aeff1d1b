(** Moves without captures may be played in any order: C139 *)
From stdpp Require Import relations sorting strings.
From Verif Require Import Spec Reach Ops Observe AreaSpec RectSpec RectReach OrderSpec GameFacts RefuteFacts OrderFacts OrderCases.
Local Notation length := Datatypes.length.
Open Scope nat_scope.

(** C139: two lists of stones that put the same stones on the board in any two orders, all accepted and nothing captured, lead to the same position, side to move, passes, outcome, ko point, prisoners and rule. *)
Theorem C139_same_game dbg dbg' n b w b' w' g ms ms' l l' g1 g2 : Nat.divide (snd n) (fst n) -> rgreach dbg n b w g -> rgreach dbg' n b' w' g ->
  (forall x y, MPlay x y ∈ ms -> ron n (x, y)) -> (forall x y, MPlay x y ∈ ms' -> ron n (x, y)) ->
  laid_stones (gm_turn g) ms = Some l -> laid_stones (gm_turn g) ms' = Some l' -> l ≡ₚ l' ->
  all_accepted dbg g ms g1 -> all_accepted dbg' g ms' g2 -> gm_prisoners g1 = gm_prisoners g -> gm_prisoners g2 = gm_prisoners g ->
  same_now n g1 g2.
Proof. exact (two_orders dbg dbg' n b w b' w' g ms ms' l l' g1 g2). Qed.
Print Assumptions C139_same_game.

Example C139_same_game_case dbg dbg' : exists g g1 g2 b w b' w', Nat.divide 4 8 /\ rgreach dbg (8, 4) b w g /\ rgreach dbg' (8, 4) b' w' g /\
  laid_stones (gm_turn g) order_ms = Some [((5, 0), White); ((5, 1), Black); ((6, 0), White)] /\
  laid_stones (gm_turn g) order_ms' = Some [((6, 0), White); ((5, 1), Black); ((5, 0), White)] /\
  [((5, 0), White); ((5, 1), Black); ((6, 0), White)] ≡ₚ [((6, 0), White); ((5, 1), Black); ((5, 0), White)] /\
  all_accepted dbg g order_ms g1 /\ all_accepted dbg' g order_ms' g2 /\ gm_prisoners g1 = gm_prisoners g /\ gm_prisoners g2 = gm_prisoners g /\
  forbids_superko (gm_rule g) = false /\ gm_prisoners g <> (0%N, 0%N) /\ gm_ko_point g = Some (1, 1) /\ b + w <= 9 /\ b' + w' <= 9.
Proof. exact (case_order dbg dbg'). Qed.

(** C139: afterwards every list of moves is answered alike, under every rule without superko. *)
Theorem C139_same_answers dbg dbg' n b w b' w' g ms ms' l l' g1 g2 rest : Nat.divide (snd n) (fst n) -> rgreach dbg n b w g -> rgreach dbg' n b' w' g ->
  (forall x y, MPlay x y ∈ ms -> ron n (x, y)) -> (forall x y, MPlay x y ∈ ms' -> ron n (x, y)) ->
  laid_stones (gm_turn g) ms = Some l -> laid_stones (gm_turn g) ms' = Some l' -> l ≡ₚ l' ->
  all_accepted dbg g ms g1 -> all_accepted dbg' g ms' g2 -> gm_prisoners g1 = gm_prisoners g -> gm_prisoners g2 = gm_prisoners g ->
  forbids_superko (gm_rule g) = false -> (forall x y, MPlay x y ∈ rest -> ron n (x, y)) ->
  (N.of_nat (b + w + length ms + length rest) <= 65535)%N -> (N.of_nat (b' + w' + length ms' + length rest) <= 65535)%N ->
  exists g1' g2' tr, run dbg g1 (List.map OTry rest) = Ok (g1', tr) /\ run dbg' g2 (List.map OTry rest) = Ok (g2', tr) /\ same_now n g1' g2'.
Proof. exact (two_orders_line dbg dbg' n b w b' w' g ms ms' l l' g1 g2 rest). Qed.
Print Assumptions C139_same_answers.

Example C139_same_answers_case dbg dbg' : exists g g1 g2 b w b' w', Nat.divide 4 8 /\ rgreach dbg (8, 4) b w g /\ rgreach dbg' (8, 4) b' w' g /\
  laid_stones (gm_turn g) order_ms = Some [((5, 0), White); ((5, 1), Black); ((6, 0), White)] /\
  laid_stones (gm_turn g) order_ms' = Some [((6, 0), White); ((5, 1), Black); ((5, 0), White)] /\
  [((5, 0), White); ((5, 1), Black); ((6, 0), White)] ≡ₚ [((6, 0), White); ((5, 1), Black); ((5, 0), White)] /\
  all_accepted dbg g order_ms g1 /\ all_accepted dbg' g order_ms' g2 /\ gm_prisoners g1 = gm_prisoners g /\ gm_prisoners g2 = gm_prisoners g /\
  forbids_superko (gm_rule g) = false /\ gm_prisoners g <> (0%N, 0%N) /\ gm_ko_point g = Some (1, 1) /\ b + w <= 9 /\ b' + w' <= 9.
Proof. exact (case_order dbg dbg'). Qed.

(** C139: not so with superko: under Chinese rules on the board of side two the same four moves are not answered alike after two orders of the first three stones. *)
Theorem C139_with_superko_refuted dbg : exists g g1 g2 l l' g1' g2' tr tr', rgreach dbg (2, 2) 0 0 g /\ gm_rule g = CHINESE /\
  laid_stones (gm_turn g) corner_ms = Some l /\ laid_stones (gm_turn g) corner_ms' = Some l' /\ l ≡ₚ l' /\
  all_accepted dbg g corner_ms g1 /\ all_accepted dbg g corner_ms' g2 /\ gm_prisoners g1 = gm_prisoners g /\ gm_prisoners g2 = gm_prisoners g /\
  run dbg g1 (List.map OTry corner_rest) = Ok (g1', tr) /\ run dbg g2 (List.map OTry corner_rest) = Ok (g2', tr') /\ tr <> tr'.
Proof. exact (superko_order dbg). Qed.
Print Assumptions C139_with_superko_refuted.

(** C139: and with captures the order decides who captures whom. *)
Theorem C139_with_captures_refuted dbg : exists g g1 g2 l l', rgreach dbg (4, 4) 0 0 g /\ gm_rule g = JAPANESE /\
  laid_stones (gm_turn g) first_ms = Some l /\ laid_stones (gm_turn g) last_ms = Some l' /\ l ≡ₚ l' /\
  all_accepted dbg g first_ms g1 /\ all_accepted dbg g last_ms g2 /\
  position g1 (0, 0) = None /\ position g2 (0, 0) = Some White /\ position g1 (0, 1) = Some Black /\ position g2 (0, 1) = None.
Proof. exact (capture_order dbg). Qed.
Print Assumptions C139_with_captures_refuted.
