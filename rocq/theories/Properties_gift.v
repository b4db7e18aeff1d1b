(** Handicap stones are Black stones with passes in between: C140 *)
From stdpp Require Import relations sorting strings.
From Verif Require Import Spec Reach Ops Observe ScoreSpec AreaSpec RectSpec RectReach GiftSpec GameFacts RefuteFacts GiftFacts GiftCases.
Local Notation length := Datatypes.length.
Open Scope nat_scope.

(** C140: handicap stones lead to the same position, side to move, passes, outcome, ko point, prisoners and rule as Black playing the points one by one with White passing in between, when all moves are accepted and nothing is captured. *)
Theorem C140_same_game dbg dbg' n b w b' w' g pts g1 g2 : Nat.divide (snd n) (fst n) -> rgreach dbg n b w g -> rgreach dbg' n b' w' g ->
  pts <> [] -> NoDup pts -> (forall p, p ∈ pts -> ron n p /\ position g p = None) -> gm_turn g = Black -> gm_passes g = 0 -> gm_ko_point g = None ->
  put_handicap dbg g pts = Ok g1 -> all_accepted dbg' g (with_passes pts) g2 -> gm_prisoners g2 = gm_prisoners g ->
  same_now n g1 g2.
Proof. exact (gift_now dbg dbg' n b w b' w' g pts g1 g2). Qed.
Print Assumptions C140_same_game.

Example C140_same_game_case dbg dbg' : exists g g1 g2 b w b' w', Nat.divide 4 8 /\ rgreach dbg (8, 4) b w g /\ rgreach dbg' (8, 4) b' w' g /\
  gift_points <> [] /\ NoDup gift_points /\ (forall p, p ∈ gift_points -> ron (8, 4) p /\ position g p = None) /\ gm_turn g = Black /\ gm_passes g = 0 /\ gm_ko_point g = None /\
  put_handicap dbg g gift_points = Ok g1 /\ all_accepted dbg' g (with_passes gift_points) g2 /\ gm_prisoners g2 = gm_prisoners g /\
  forbids_superko (gm_rule g) = false /\ b + w <= 2 /\ b' + w' <= 2 /\ position g (2, 2) = Some White.
Proof. exact (case_gift dbg dbg'). Qed.

(** C140: afterwards every list of moves is answered alike, under every rule without superko. *)
Theorem C140_same_answers dbg dbg' n b w b' w' g pts g1 g2 rest : Nat.divide (snd n) (fst n) -> rgreach dbg n b w g -> rgreach dbg' n b' w' g ->
  pts <> [] -> NoDup pts -> (forall p, p ∈ pts -> ron n p /\ position g p = None) -> gm_turn g = Black -> gm_passes g = 0 -> gm_ko_point g = None ->
  put_handicap dbg g pts = Ok g1 -> all_accepted dbg' g (with_passes pts) g2 -> gm_prisoners g2 = gm_prisoners g ->
  forbids_superko (gm_rule g) = false -> (forall x y, MPlay x y ∈ rest -> ron n (x, y)) ->
  (N.of_nat (b + w + length pts + length rest) <= 65535)%N -> (N.of_nat (b' + w' + 2 * length pts + length rest) <= 65535)%N ->
  exists g1' g2' tr, run dbg g1 (List.map OTry rest) = Ok (g1', tr) /\ run dbg' g2 (List.map OTry rest) = Ok (g2', tr) /\ same_now n g1' g2'.
Proof. exact (gift_line dbg dbg' n b w b' w' g pts g1 g2 rest). Qed.
Print Assumptions C140_same_answers.

Example C140_same_answers_case dbg dbg' : exists g g1 g2 b w b' w', Nat.divide 4 8 /\ rgreach dbg (8, 4) b w g /\ rgreach dbg' (8, 4) b' w' g /\
  gift_points <> [] /\ NoDup gift_points /\ (forall p, p ∈ gift_points -> ron (8, 4) p /\ position g p = None) /\ gm_turn g = Black /\ gm_passes g = 0 /\ gm_ko_point g = None /\
  put_handicap dbg g gift_points = Ok g1 /\ all_accepted dbg' g (with_passes gift_points) g2 /\ gm_prisoners g2 = gm_prisoners g /\
  forbids_superko (gm_rule g) = false /\ b + w <= 2 /\ b' + w' <= 2 /\ position g (2, 2) = Some White.
Proof. exact (case_gift dbg dbg'). Qed.

(** C140: and the scores for every choice of what is counted and the outcomes are the same, under every rule. *)
Theorem C140_same_score dbg dbg' order order' n b w b' w' g pts g1 g2 flags : Nat.divide (snd n) (fst n) -> rgreach dbg n b w g -> rgreach dbg' n b' w' g ->
  pts <> [] -> NoDup pts -> (forall p, p ∈ pts -> ron n p /\ position g p = None) -> gm_turn g = Black -> gm_passes g = 0 -> gm_ko_point g = None ->
  put_handicap dbg g pts = Ok g1 -> all_accepted dbg' g (with_passes pts) g2 -> gm_prisoners g2 = gm_prisoners g ->
  (forall l, order l ≡ₚ l) -> (forall l, order' l ≡ₚ l) ->
  exists s o, calculate_score_by order dbg g1 flags = Ok s /\ calculate_score_by order' dbg' g2 flags = Ok s /\ outcome order dbg g1 = Ok o /\ outcome order' dbg' g2 = Ok o.
Proof. exact (gift_score dbg dbg' order order' n b w b' w' g pts g1 g2 flags). Qed.
Print Assumptions C140_same_score.

Example C140_same_score_case dbg dbg' : exists g g1 g2 b w b' w', Nat.divide 4 8 /\ rgreach dbg (8, 4) b w g /\ rgreach dbg' (8, 4) b' w' g /\
  gift_points <> [] /\ NoDup gift_points /\ (forall p, p ∈ gift_points -> ron (8, 4) p /\ position g p = None) /\ gm_turn g = Black /\ gm_passes g = 0 /\ gm_ko_point g = None /\
  put_handicap dbg g gift_points = Ok g1 /\ all_accepted dbg' g (with_passes gift_points) g2 /\ gm_prisoners g2 = gm_prisoners g /\
  forbids_superko (gm_rule g) = false /\ b + w <= 2 /\ b' + w' <= 2 /\ position g (2, 2) = Some White.
Proof. exact (case_gift dbg dbg'). Qed.

(** C140: handicap stones do not capture: a white stone in the corner stays without a liberty where played stones would take it. *)
Theorem C140_with_captures_refuted dbg : exists g g1 g2 b w, rgreach dbg (4, 4) b w g /\ NoDup corner_points /\ (forall p, p ∈ corner_points -> ron (4, 4) p /\ position g p = None) /\
  gm_turn g = Black /\ gm_passes g = 0 /\ gm_ko_point g = None /\
  put_handicap dbg g corner_points = Ok g1 /\ all_accepted dbg g (with_passes corner_points) g2 /\
  position g1 (0, 0) = Some White /\ position g2 (0, 0) = None.
Proof. exact (gift_capture dbg). Qed.
Print Assumptions C140_with_captures_refuted.
