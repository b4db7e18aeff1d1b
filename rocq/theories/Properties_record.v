(** Of the past only the recorded positions matter: C138 *)
From stdpp Require Import relations sorting strings.
From Verif Require Import Spec Reach Ops Observe RectSpec RectReach RecordSpec GameFacts RefuteFacts RecordFacts RecordCases.
Local Notation length := Datatypes.length.
Open Scope nat_scope.

(** C138: the recorded positions of a reachable game are pairwise different. *)
Theorem C138_recorded_once dbg n b w g : Nat.divide (snd n) (fst n) -> rgreach dbg n b w g ->
  forall i j a a', gm_history g !! i = Some a -> gm_history g !! j = Some a' -> (forall p, ron n p -> pos_of a p = pos_of a' p) -> i = j.
Proof. exact (distinct_reach dbg n b w g). Qed.
Print Assumptions C138_recorded_once.

Example C138_recorded_once_case dbg dbg' : exists g h b w b' w' a a', Nat.divide 4 4 /\ rgreach dbg (4, 4) b w g /\ rgreach dbg' (4, 4) b' w' h /\ same_now (4, 4) g h /\ same_record (4, 4) g h /\
  length (chains (gm_goban h)) = length (chains (gm_goban g)) /\ b + w <= 14 /\ b' + w' <= 14 /\ gm_rule g = CHINESE /\ length (gm_history g) = 3 /\
  gm_history g !! 1 = Some a /\ gm_history h !! 1 = Some a' /\ ~ rsame_pos (4, 4) (pos_of a) (pos_of a') /\
  try_play dbg g (MPlay 0 1) = Ok (g, Refused EKo).
Proof. exact (case_record dbg dbg'). Qed.

(** C138: two reachable games that agree now and have the same positions on record, in any order, answer every list of moves alike and agree again afterwards, under every rule. *)
Theorem C138_same_line n dbg dbg' ms : Nat.divide (snd n) (fst n) -> forall b w b' w' g h,
  rgreach dbg n b w g -> rgreach dbg' n b' w' h -> same_now n g h -> same_record n g h ->
  (forall x y, MPlay x y ∈ ms -> ron n (x, y)) ->
  (N.of_nat (b + w + length ms) <= 65535)%N -> (N.of_nat (b' + w' + length ms) <= 65535)%N ->
  exists g' h' tr, run dbg g (List.map OTry ms) = Ok (g', tr) /\ run dbg' h (List.map OTry ms) = Ok (h', tr) /\ same_now n g' h' /\ same_record n g' h'.
Proof. exact (fun Hd b w b' w' g h => record_run n dbg dbg' ms Hd b w b' w' g h). Qed.
Print Assumptions C138_same_line.

Example C138_same_line_case dbg dbg' : exists g h b w b' w' a a', Nat.divide 4 4 /\ rgreach dbg (4, 4) b w g /\ rgreach dbg' (4, 4) b' w' h /\ same_now (4, 4) g h /\ same_record (4, 4) g h /\
  length (chains (gm_goban h)) = length (chains (gm_goban g)) /\ b + w <= 14 /\ b' + w' <= 14 /\ gm_rule g = CHINESE /\ length (gm_history g) = 3 /\
  gm_history g !! 1 = Some a /\ gm_history h !! 1 = Some a' /\ ~ rsame_pos (4, 4) (pos_of a) (pos_of a') /\
  try_play dbg g (MPlay 0 1) = Ok (g, Refused EKo).
Proof. exact (case_record dbg dbg'). Qed.

(** C138: they are worth the same to both players, under every rule. *)
Theorem C138_same_value dbg dbg' n b w b' w' g h : Nat.divide (snd n) (fst n) -> rgreach dbg n b w g -> rgreach dbg' n b' w' h -> same_now n g h ->
  same_record n g h -> length (chains (gm_goban h)) = length (chains (gm_goban g)) -> same_value dbg dbg' n (fun c => c) g h.
Proof. exact (record_value dbg dbg' n b w b' w' g h). Qed.
Print Assumptions C138_same_value.

Example C138_same_value_case dbg dbg' : exists g h b w b' w' a a', Nat.divide 4 4 /\ rgreach dbg (4, 4) b w g /\ rgreach dbg' (4, 4) b' w' h /\ same_now (4, 4) g h /\ same_record (4, 4) g h /\
  length (chains (gm_goban h)) = length (chains (gm_goban g)) /\ b + w <= 14 /\ b' + w' <= 14 /\ gm_rule g = CHINESE /\ length (gm_history g) = 3 /\
  gm_history g !! 1 = Some a /\ gm_history h !! 1 = Some a' /\ ~ rsame_pos (4, 4) (pos_of a) (pos_of a') /\
  try_play dbg g (MPlay 0 1) = Ok (g, Refused EKo).
Proof. exact (case_record dbg dbg'). Qed.
