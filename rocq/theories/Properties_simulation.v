(** Simulations of the tree search: C106 *)
From stdpp Require Import relations sorting strings.
From Verif Require Import Spec Reach Observe ScoreSpec PlayoutSpec SimulationSpec SolidClaims SimulationFacts SimulationClaims.
Local Notation length := Datatypes.length.
Open Scope nat_scope.

(** C106: a simulation ends in a finished game and rewards the colour that is ahead there; it panics if the colours are level. *)
Theorem C106_reward_of_a_simulation order fuel dbg n b w ch g j k2 : greach dbg n b w g -> gm_outcome g = None -> (forall l, order l ≡ₚ l) ->
  (forall i l, ch_shuffles ch j i l ≡ₚ l) -> is_f32 (komi g) -> halves (komi g) k2 -> (Z.abs k2 <= 200000)%Z -> (47316994 < N.of_nat fuel)%N ->
  (simulation order fuel dbg ch g j = Panic /\ exists g1, rtc (simulation_step dbg n) g g1 /\ no_slot_left g1) \/
  exists final, rtc (simulation_step dbg n) g final /\ is_over final = true /\
    ((fst (gm_prisoners final) < 1000000)%N -> (snd (gm_prisoners final) < 1000000)%N ->
     exists tb tw, card (owned n (position final) Black) tb /\ card (owned n (position final) White) tw /\
      let B := black2 (flag_score (gm_rule g)) (N.of_nat tb) (N.of_nat (count n (position final) Black)) (fst (gm_prisoners final)) in
      let Wh := white2 (flag_score (gm_rule g)) (N.of_nat tw) (N.of_nat (count n (position final) White)) (snd (gm_prisoners final)) k2 in
      let mine := match ch_color ch j with Black => B | White => Wh end in
      let theirs := match ch_color ch j with Black => Wh | White => B end in
      (simulation order fuel dbg ch g j = Ok 1 <-> (mine > theirs)%Z) /\
      (simulation order fuel dbg ch g j = Ok 0 <-> (mine < theirs)%Z) /\
      (simulation order fuel dbg ch g j = Panic <-> mine = theirs)).
Proof. exact (simulation_reward order fuel dbg n b w ch g j k2). Qed.
Print Assumptions C106_reward_of_a_simulation.

Example C106_reward_of_a_simulation_case dbg : exists g b w, greach dbg 7 b w g /\ gm_outcome g = None /\ is_over g = false /\ (forall i, fair 1 (hunting i)) /\
  N.testbit (flag_score (gm_rule g)) 1 = true /\ is_f32 (komi g) /\ halves (komi g) 13 /\ Z.odd 13 = true /\ (Z.abs 13 <= 200000)%Z /\
  (47316994 < N.of_nat (N.to_nat 47316995))%N /\ simulated_eval dbg g = [Ok 1; Ok 1] /\
  dead_stones_wth_simulations (fun l => l) 600 1 hunting dbg g = Ok [0; 2].
Proof. exact (case_simulated dbg). Qed.

(** C106: with half a point of komi, dead_stones gives its answer after any number of simulations, unless group numbers run out or a million stones of one colour are captured on the way. *)
Theorem C106_dead_stones_answers order fuel nb chs dbg n b w g k2 : greach dbg n b w g -> (forall l, order l ≡ₚ l) ->
  (forall i, fair nb (chs i)) -> N.testbit (flag_score (gm_rule g)) 1 = true ->
  is_f32 (komi g) -> halves (komi g) k2 -> Z.odd k2 = true -> (Z.abs k2 <= 200000)%Z -> (47316994 < N.of_nat fuel)%N ->
  (exists l fl final, dead_stones_wth_simulations order fuel nb chs dbg g = Ok l /\ get_floating_stones dbg g = Ok fl /\
     rtc (search_step dbg n) g final /\ is_over final = true /\ StronglySorted lt l /\
     forall k, k ∈ l <-> k ∈ fl /\ exists p, on n p /\ group_no (gm_goban g) p = Some k /\ position final p <> position g p) \/
  (dead_stones_wth_simulations order fuel nb chs dbg g = Panic /\ exists g1, rtc (simulation_step dbg n) g g1 /\ worn_out g1).
Proof. exact (dead_stones_simulated order fuel nb chs dbg n b w g k2). Qed.
Print Assumptions C106_dead_stones_answers.

Example C106_dead_stones_answers_case dbg : exists g b w, greach dbg 7 b w g /\ gm_outcome g = None /\ is_over g = false /\ (forall i, fair 1 (hunting i)) /\
  N.testbit (flag_score (gm_rule g)) 1 = true /\ is_f32 (komi g) /\ halves (komi g) 13 /\ Z.odd 13 = true /\ (Z.abs 13 <= 200000)%Z /\
  (47316994 < N.of_nat (N.to_nat 47316995))%N /\ simulated_eval dbg g = [Ok 1; Ok 1] /\
  dead_stones_wth_simulations (fun l => l) 600 1 hunting dbg g = Ok [0; 2].
Proof. exact (case_simulated dbg). Qed.

(** C106: with a komi of 5 a simulation from the empty 5 x 5 board ends in a draw, and dead_stones panics. *)
Theorem C106_dead_stones_always_answers_refuted dbg : exists g, lreach dbg 5 g /\ is_over g = false /\ (forall i, fair 1 (drawing i)) /\
  N.testbit (flag_score (gm_rule g)) 1 = true /\ komi g = f32_of_N 5 /\
  (exists leaf final, descend dbg [0; 8] g = Ok leaf /\ playout 300 0 (ch_shuffles (drawing 0) 0) dbg leaf = Ok final /\ outcome (fun l => l) dbg final = Ok (Some Draw)) /\
  dead_stones_wth_simulations (fun l => l) 300 1 drawing dbg g = Panic.
Proof. exact (simulation_draw dbg). Qed.
Print Assumptions C106_dead_stones_always_answers_refuted.
