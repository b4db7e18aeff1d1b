(** Without superko the past does not matter: C137 *)
From stdpp Require Import relations sorting strings.
From Verif Require Import Spec Reach Ops Observe ScoreSpec RectSpec RectReach PastSpec GameFacts RefuteFacts PastFacts PastCases.
Local Notation length := Datatypes.length.
Open Scope nat_scope.

(** C137: two reachable games that agree now, with any two histories, answer every list of moves alike and still agree afterwards, under every rule without superko. *)
Theorem C137_same_line n dbg dbg' ms : Nat.divide (snd n) (fst n) -> forall b w b' w' g h,
  rgreach dbg n b w g -> rgreach dbg' n b' w' h -> same_now n g h -> forbids_superko (gm_rule g) = false ->
  (forall x y, MPlay x y ∈ ms -> ron n (x, y)) ->
  (N.of_nat (b + w + length ms) <= 65535)%N -> (N.of_nat (b' + w' + length ms) <= 65535)%N ->
  exists g' h' tr, run dbg g (List.map OTry ms) = Ok (g', tr) /\ run dbg' h (List.map OTry ms) = Ok (h', tr) /\ same_now n g' h'.
Proof. exact (fun Hd b w b' w' g h => past_run n dbg dbg' ms Hd b w b' w' g h). Qed.
Print Assumptions C137_same_line.

Example C137_same_line_case dbg dbg' : exists g h b w b' w' a, Nat.divide 4 8 /\ rgreach dbg (8, 4) b w g /\ rgreach dbg' (8, 4) b' w' h /\ same_now (8, 4) g h /\
  forbids_superko (gm_rule g) = false /\ length (chains (gm_goban h)) = length (chains (gm_goban g)) /\ b + w <= 9 /\ b' + w' <= 9 /\
  gm_ko_point g = Some (1, 1) /\ a ∈ gm_history g /\ forall x, x ∈ gm_history h -> ~ rsame_pos (8, 4) (pos_of a) (pos_of x).
Proof. exact (case_past dbg dbg'). Qed.

(** C137: they have the same score for every choice of what is counted and the same outcome, under every rule. *)
Theorem C137_same_score n order order' dbg dbg' b w b' w' g h flags : Nat.divide (snd n) (fst n) ->
  rgreach dbg n b w g -> rgreach dbg' n b' w' h -> (forall l, order l ≡ₚ l) -> (forall l, order' l ≡ₚ l) -> same_now n g h ->
  exists s o, calculate_score_by order dbg g flags = Ok s /\ calculate_score_by order' dbg' h flags = Ok s /\
    outcome order dbg g = Ok o /\ outcome order' dbg' h = Ok o.
Proof. exact (past_score n order order' dbg dbg' b w b' w' g h flags). Qed.
Print Assumptions C137_same_score.

Example C137_same_score_case dbg dbg' : exists g h b w b' w' a, Nat.divide 4 8 /\ rgreach dbg (8, 4) b w g /\ rgreach dbg' (8, 4) b' w' h /\ same_now (8, 4) g h /\
  forbids_superko (gm_rule g) = false /\ length (chains (gm_goban h)) = length (chains (gm_goban g)) /\ b + w <= 9 /\ b' + w' <= 9 /\
  gm_ko_point g = Some (1, 1) /\ a ∈ gm_history g /\ forall x, x ∈ gm_history h -> ~ rsame_pos (8, 4) (pos_of a) (pos_of x).
Proof. exact (case_past dbg dbg'). Qed.

(** C137: they give the same answer about every point for every mask without superko. *)
Theorem C137_same_point n dbg dbg' b w b' w' g h p F e : Nat.divide (snd n) (fst n) -> rgreach dbg n b w g -> rgreach dbg' n b' w' h -> same_now n g h ->
  ron n p -> N.testbit F 1 = false -> check_point_by dbg g p F = Ok e <-> check_point_by dbg' h p F = Ok e.
Proof. exact (past_point n dbg dbg' b w b' w' g h p F e). Qed.
Print Assumptions C137_same_point.

Example C137_same_point_case dbg dbg' : exists g h b w b' w' a, Nat.divide 4 8 /\ rgreach dbg (8, 4) b w g /\ rgreach dbg' (8, 4) b' w' h /\ same_now (8, 4) g h /\
  forbids_superko (gm_rule g) = false /\ length (chains (gm_goban h)) = length (chains (gm_goban g)) /\ b + w <= 9 /\ b' + w' <= 9 /\
  gm_ko_point g = Some (1, 1) /\ a ∈ gm_history g /\ forall x, x ∈ gm_history h -> ~ rsame_pos (8, 4) (pos_of a) (pos_of x).
Proof. exact (case_past dbg dbg'). Qed.

(** C137: they have the same list of legal moves for every mask without superko. *)
Theorem C137_same_legals n dbg dbg' b w b' w' g h F l : Nat.divide (snd n) (fst n) -> rgreach dbg n b w g -> rgreach dbg' n b' w' h -> same_now n g h ->
  N.testbit F 1 = false -> legals_by dbg g F = Ok l <-> legals_by dbg' h F = Ok l.
Proof. exact (past_legals n dbg dbg' b w b' w' g h F l). Qed.
Print Assumptions C137_same_legals.

Example C137_same_legals_case dbg dbg' : exists g h b w b' w' a, Nat.divide 4 8 /\ rgreach dbg (8, 4) b w g /\ rgreach dbg' (8, 4) b' w' h /\ same_now (8, 4) g h /\
  forbids_superko (gm_rule g) = false /\ length (chains (gm_goban h)) = length (chains (gm_goban g)) /\ b + w <= 9 /\ b' + w' <= 9 /\
  gm_ko_point g = Some (1, 1) /\ a ∈ gm_history g /\ forall x, x ∈ gm_history h -> ~ rsame_pos (8, 4) (pos_of a) (pos_of x).
Proof. exact (case_past dbg dbg'). Qed.

(** C137: they are worth the same to both players under every rule without superko. *)
Theorem C137_same_value dbg dbg' n b w b' w' g h : Nat.divide (snd n) (fst n) -> rgreach dbg n b w g -> rgreach dbg' n b' w' h -> same_now n g h ->
  forbids_superko (gm_rule g) = false -> length (chains (gm_goban h)) = length (chains (gm_goban g)) -> same_value dbg dbg' n (fun c => c) g h.
Proof. exact (past_value dbg dbg' n b w b' w' g h). Qed.
Print Assumptions C137_same_value.

Example C137_same_value_case dbg dbg' : exists g h b w b' w' a, Nat.divide 4 8 /\ rgreach dbg (8, 4) b w g /\ rgreach dbg' (8, 4) b' w' h /\ same_now (8, 4) g h /\
  forbids_superko (gm_rule g) = false /\ length (chains (gm_goban h)) = length (chains (gm_goban g)) /\ b + w <= 9 /\ b' + w' <= 9 /\
  gm_ko_point g = Some (1, 1) /\ a ∈ gm_history g /\ forall x, x ∈ gm_history h -> ~ rsame_pos (8, 4) (pos_of a) (pos_of x).
Proof. exact (case_past dbg dbg'). Qed.

(** C137: not so with superko: under Chinese rules a move is banned after one order of moves and accepted after another that leads to the same position. *)
Theorem C137_with_superko_refuted dbg : exists g h b w b' w', rgreach dbg (2, 2) b w g /\ rgreach dbg (2, 2) b' w' h /\ same_now (2, 2) g h /\
  length (chains (gm_goban h)) = length (chains (gm_goban g)) /\ gm_rule g = CHINESE /\
  try_play dbg g (MPlay 0 0) = Ok (g, Refused EKo) /\ exists h', try_play dbg h (MPlay 0 0) = Ok (h', Accepted).
Proof. exact (superko_past dbg). Qed.
Print Assumptions C137_with_superko_refuted.
