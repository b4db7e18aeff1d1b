(** A position may be set up instead of played: C142 *)
From stdpp Require Import relations sorting strings.
From Verif Require Import Spec Reach Ops Observe Builder AreaSpec RectSpec RectReach OrderSpec GameFacts RefuteFacts StageFacts StageCases.
Local Notation length := Datatypes.length.
Open Scope nat_scope.

(** C142: a position in which every chain has a liberty, set up by the builder, is the same game as the one reached from a new game by playing its stones in turn, in any order, and all these moves are accepted, under every rule that does not protect eyes. *)
Theorem C142_set_up_or_played dbg dbg' n bl g s r g0 ms l : Nat.divide (snd n) (fst n) -> 1 <= fst n -> 1 <= snd n ->
  b_size bl = n -> b_moves bl = [] -> b_outcome bl = None -> NoDup (setup_stones bl).*1 -> (forall s, s ∈ setup_stones bl -> ron n (fst s)) -> build_inner dbg bl = Ok g ->
  size_of s = n -> game_new s r = Ok g0 -> gm_rule g = r -> laid_stones Black ms = Some l -> l ≡ₚ setup_stones bl ->
  gm_turn g = (if Nat.even (length ms) then Black else White) -> rall_breathe n (position g) -> forbids_fill_eye r = false -> (N.of_nat (length ms) < 65535)%N ->
  exists g2 b w, all_accepted dbg' g0 ms g2 /\ same_now n g g2 /\ rgreach dbg' n b w g2 /\ b + w <= length ms.
Proof. exact (staged_played dbg dbg' n bl g s r g0 ms l). Qed.
Print Assumptions C142_set_up_or_played.

Example C142_set_up_or_played_case dbg : exists g g0, Nat.divide 4 8 /\ b_size stage_builder = (8, 4) /\ b_moves stage_builder = [] /\ b_outcome stage_builder = None /\
  NoDup (setup_stones stage_builder).*1 /\ (forall s, s ∈ setup_stones stage_builder -> ron (8, 4) (fst s)) /\ build_inner dbg stage_builder = Ok g /\
  size_of (Custom 8 4) = (8, 4) /\ game_new (Custom 8 4) JAPANESE = Ok g0 /\ gm_rule g = JAPANESE /\ laid_stones Black stage_ms = Some stage_list /\ stage_list ≡ₚ setup_stones stage_builder /\
  gm_turn g = (if Nat.even (length stage_ms) then Black else White) /\ rall_breathe (8, 4) (position g) /\ forbids_fill_eye JAPANESE = false /\ forbids_superko JAPANESE = false.
Proof. exact (case_stage dbg). Qed.

(** C142: afterwards every list of moves is answered alike, under every rule without superko. *)
Theorem C142_same_answers dbg dbg' n bl g s r g0 ms l rest : Nat.divide (snd n) (fst n) -> 1 <= fst n -> 1 <= snd n ->
  b_size bl = n -> b_moves bl = [] -> b_outcome bl = None -> NoDup (setup_stones bl).*1 -> (forall s, s ∈ setup_stones bl -> ron n (fst s)) -> build_inner dbg bl = Ok g ->
  size_of s = n -> game_new s r = Ok g0 -> gm_rule g = r -> laid_stones Black ms = Some l -> l ≡ₚ setup_stones bl ->
  gm_turn g = (if Nat.even (length ms) then Black else White) -> rall_breathe n (position g) -> forbids_fill_eye r = false -> forbids_superko r = false ->
  (forall x y, MPlay x y ∈ rest -> ron n (x, y)) -> (N.of_nat (length ms + length rest) < 65535)%N ->
  exists g2 g' g2' tr, all_accepted dbg' g0 ms g2 /\ run dbg g (List.map OTry rest) = Ok (g', tr) /\ run dbg' g2 (List.map OTry rest) = Ok (g2', tr) /\ same_now n g' g2'.
Proof. exact (staged_answers dbg dbg' n bl g s r g0 ms l rest). Qed.
Print Assumptions C142_same_answers.

Example C142_same_answers_case dbg : exists g g0, Nat.divide 4 8 /\ b_size stage_builder = (8, 4) /\ b_moves stage_builder = [] /\ b_outcome stage_builder = None /\
  NoDup (setup_stones stage_builder).*1 /\ (forall s, s ∈ setup_stones stage_builder -> ron (8, 4) (fst s)) /\ build_inner dbg stage_builder = Ok g /\
  size_of (Custom 8 4) = (8, 4) /\ game_new (Custom 8 4) JAPANESE = Ok g0 /\ gm_rule g = JAPANESE /\ laid_stones Black stage_ms = Some stage_list /\ stage_list ≡ₚ setup_stones stage_builder /\
  gm_turn g = (if Nat.even (length stage_ms) then Black else White) /\ rall_breathe (8, 4) (position g) /\ forbids_fill_eye JAPANESE = false /\ forbids_superko JAPANESE = false.
Proof. exact (case_stage dbg). Qed.

(** C142: not so when a chain has no liberty: the builder leaves it on the board, played stones take it. *)
Theorem C142_dead_stones_refuted dbg : exists g g0 g2, build_inner dbg dead_builder = Ok g /\ game_new (Custom 4 4) JAPANESE = Ok g0 /\ gm_rule g = JAPANESE /\
  laid_stones Black dead_ms = Some (setup_stones dead_builder) /\ gm_turn g = White /\ all_accepted dbg g0 dead_ms g2 /\
  position g (0, 0) = Some White /\ position g2 (0, 0) = None.
Proof. exact (dead_stage dbg). Qed.
Print Assumptions C142_dead_stones_refuted.
