(** Lines of play and simulations on boards whose width divides their height: C121, C122 *)
From stdpp Require Import relations sorting strings.
From Verif Require Import Spec Reach Observe ScoreSpec SymSpec RectPerftSpec RectSimSpec RectCountSpec RectReach Bench RectPerft RectSim RectSimClaims.
Local Notation length := Datatypes.length.
Open Scope nat_scope.

(** C121: on a board with k times as many rows as columns perft counts the lines of d stones inside the upper square, each k ^ d times. *)
Theorem C121_perft_counts_the_square dbg n k b w g d : fst n = (k * snd n)%nat -> rgreach dbg n b w g -> gm_passes g <> 2%nat -> (N.of_nat (b + w + d) <= 65535)%N ->
  exists m, number_of (fun ms => length ms = d /\ (forall p, p ∈ ms -> in_square n p) /\ rplayable_line n (flag_illegal (gm_rule g)) (table_of g) ms) m /\
    perft dbg g d = as_u64 dbg (N.of_nat k ^ N.of_nat d * m).
Proof. exact (rperft_exact dbg n k b w g d). Qed.
Print Assumptions C121_perft_counts_the_square.

Example C121_perft_counts_the_square_case dbg : exists g b w, fst (9, 3) = 3 * snd (9, 3) /\ rgreach dbg (9, 3) b w g /\ gm_passes g <> 2 /\ (N.of_nat (b + w + 3) <= 65535)%N /\
  perft dbg g 1 = Ok 3%N /\ perft dbg g 2 = Ok 27%N /\ perft dbg g 3 = Ok 162%N.
Proof. exact (case_rperft dbg). Qed.

(** C121: with one stone on a 4x2 board perft answers 8 for depth 1, and there are 7 moves. *)
Theorem C121_perft_counts_lines_refuted dbg : exists g b w, rgreach dbg (4, 2) b w g /\ position g (3, 0) = Some Black /\
  number_of (fun ms => length ms = 1 /\ (forall p, p ∈ ms -> ron (4, 2) p) /\ rplayable_line (4, 2) (flag_illegal (gm_rule g)) (table_of g) ms) 7 /\
  perft dbg g 1 = Ok 8%N.
Proof. exact (perft_overcounts dbg). Qed.
Print Assumptions C121_perft_counts_lines_refuted.

(** C122: a simulation ends in a finished game and rewards the colour that is ahead there by the count this code makes on tall boards. *)
Theorem C122_reward_of_a_simulation order fuel dbg n b w ch g j k2 : Nat.divide (snd n) (fst n) -> rgreach dbg n b w g -> gm_outcome g = None -> (forall l, order l ≡ₚ l) ->
  (forall i l, ch_shuffles ch j i l ≡ₚ l) -> is_f32 (komi g) -> halves (komi g) k2 -> (Z.abs k2 <= 200000)%Z -> (47316994 < N.of_nat fuel)%N ->
  (simulation order fuel dbg ch g j = Panic /\ exists g1, rtc (rsimulation_step dbg n) g g1 /\ no_slot_left g1) \/
  exists final, rtc (rsimulation_step dbg n) g final /\ is_over final = true /\
    ((fst (gm_prisoners final) < 1000000)%N -> (snd (gm_prisoners final) < 1000000)%N ->
     exists l G bl wl, pseudo_legals final = Ok l /\ rchosen n (position final) [] l G /\
      rcounted n (position final) Black G bl /\ rcounted n (position final) White G wl /\
      let B := black2 (flag_score (gm_rule g)) (N.of_nat (length bl)) (N.of_nat (rcount n (position final) Black)) (fst (gm_prisoners final)) in
      let Wh := white2 (flag_score (gm_rule g)) (N.of_nat (length wl)) (N.of_nat (rcount n (position final) White)) (snd (gm_prisoners final)) k2 in
      let mine := match ch_color ch j with Black => B | White => Wh end in
      let theirs := match ch_color ch j with Black => Wh | White => B end in
      (simulation order fuel dbg ch g j = Ok 1 <-> (mine > theirs)%Z) /\
      (simulation order fuel dbg ch g j = Ok 0 <-> (mine < theirs)%Z) /\
      (simulation order fuel dbg ch g j = Panic <-> mine = theirs)).
Proof. exact (rsimulation_reward order fuel dbg n b w ch g j k2). Qed.
Print Assumptions C122_reward_of_a_simulation.

Example C122_reward_of_a_simulation_case dbg : exists g b w, Nat.divide 3 9 /\ rgreach dbg (9, 3) b w g /\ gm_outcome g = None /\ is_over g = false /\ (forall i, fair 2 (tall_sims i)) /\
  N.testbit (flag_score (gm_rule g)) 1 = true /\ is_f32 (komi g) /\ halves (komi g) 13 /\ Z.odd 13 = true /\ (Z.abs 13 <= 200000)%Z /\
  (47316994 < N.of_nat (N.to_nat 47316995))%N /\ tall_eval dbg g = [Ok 0; Ok 1; Ok 1] /\
  dead_stones_wth_simulations (fun l => l) 100 2 tall_sims dbg g = Ok [2].
Proof. exact (case_rsimulated dbg). Qed.

(** C122: with half a point of komi dead_stones gives its answer on tall boards too, unless group numbers run out or a million stones of one colour are captured. *)
Theorem C122_dead_stones_answers order fuel nb chs dbg n b w g k2 : Nat.divide (snd n) (fst n) -> rgreach dbg n b w g -> (forall l, order l ≡ₚ l) ->
  (forall i, fair nb (chs i)) -> N.testbit (flag_score (gm_rule g)) 1 = true ->
  is_f32 (komi g) -> halves (komi g) k2 -> Z.odd k2 = true -> (Z.abs k2 <= 200000)%Z -> (47316994 < N.of_nat fuel)%N ->
  (exists l fl final, dead_stones_wth_simulations order fuel nb chs dbg g = Ok l /\ get_floating_stones dbg g = Ok fl /\
     rtc (offered_step dbg) g final /\ is_over final = true /\ StronglySorted lt l /\
     forall k, k ∈ l <-> k ∈ fl /\ exists p, ron n p /\ group_no (gm_goban g) p = Some k /\ position final p <> position g p) \/
  (dead_stones_wth_simulations order fuel nb chs dbg g = Panic /\ exists g1, rtc (rsimulation_step dbg n) g g1 /\ worn_out g1).
Proof. exact (rdead_stones_simulated order fuel nb chs dbg n b w g k2). Qed.
Print Assumptions C122_dead_stones_answers.

Example C122_dead_stones_answers_case dbg : exists g b w, Nat.divide 3 9 /\ rgreach dbg (9, 3) b w g /\ gm_outcome g = None /\ is_over g = false /\ (forall i, fair 2 (tall_sims i)) /\
  N.testbit (flag_score (gm_rule g)) 1 = true /\ is_f32 (komi g) /\ halves (komi g) 13 /\ Z.odd 13 = true /\ (Z.abs 13 <= 200000)%Z /\
  (47316994 < N.of_nat (N.to_nat 47316995))%N /\ tall_eval dbg g = [Ok 0; Ok 1; Ok 1] /\
  dead_stones_wth_simulations (fun l => l) 100 2 tall_sims dbg g = Ok [2].
Proof. exact (case_rsimulated dbg). Qed.

(** C122: a simulation rewards Black in a game in which each colour owns half of the 6x3 board and White has the komi. *)
Theorem C122_right_colour_rewarded_refuted dbg : exists g b w final, rgreach dbg (6, 3) b w g /\ is_over g = false /\ gm_rule g = CHINESE /\ komi g = f32_make 15 (-1) /\
  descend dbg (ch_way (tall_sims 0) 0) g = Ok g /\ playout 100 0 (ch_shuffles (tall_sims 0) 0) dbg g = Ok final /\ ch_color (tall_sims 0) 0 = Black /\
  card (fun p => position final p = Some Black /\ ron (6, 3) p \/ rowned (6, 3) (position final) Black p) 9 /\
  card (fun p => position final p = Some White /\ ron (6, 3) p \/ rowned (6, 3) (position final) White p) 9 /\
  simulation (fun l => l) 100 dbg (tall_sims 0) g 0 = Ok 1.
Proof. exact (wrong_reward dbg). Qed.
Print Assumptions C122_right_colour_rewarded_refuted.
