(** Living stones decide the game: C135 *)
From stdpp Require Import relations sorting strings.
From Verif Require Import Spec Observe ScoreSpec LifeSpec StrategySpec LifeValueSpec GameFacts LifeValue LifeValueCases LifeValueTall RectLifeSpec RectReach.
Local Notation length := Datatypes.length.
Open Scope nat_scope.

(** C135: under area counting on a square board, unconditionally living stones and one-point eyes that outweigh the rest of the board and the komi force the win, and force at least a draw when they only balance them. *)
Theorem C135_living_stones_win dbg n b w c X E F g k2 : 2 <= n -> greach dbg n b w g -> forbids_suicide (gm_rule g) = true -> gm_outcome g = None ->
  alive n (position g) c X F -> NoDup X -> NoDup E -> (forall e, e ∈ E -> [e] ∈ F) ->
  is_f32 (komi g) -> halves (komi g) k2 -> (Z.abs k2 <= 200000)%Z ->
  N.testbit (flag_score (gm_rule g)) 0 = true -> N.testbit (flag_score (gm_rule g)) 2 = false ->
  ((0 < lead n c X E (flag_score (gm_rule g)) k2)%Z -> forces dbg (n, n) c (won dbg c) g) /\
  ((0 <= lead n c X E (flag_score (gm_rule g)) k2)%Z -> forces dbg (n, n) c (not_lost dbg c) g).
Proof. exact (living_wins dbg n b w c X E F g k2). Qed.
Print Assumptions C135_living_stones_win.

Example C135_living_stones_win_case dbg : exists g b w g', 2 <= 5 /\ greach dbg 5 b w g /\ forbids_suicide (gm_rule g) = true /\ gm_outcome g = None /\
  alive 5 (position g) Black big_wall [[(0, 0)]; [(0, 2)]] /\ NoDup big_wall /\ NoDup [(0, 0); (0, 2)] /\ (forall e, e ∈ [(0, 0); (0, 2)] -> [e] ∈ [[(0, 0)]; [(0, 2)]]) /\
  is_f32 (komi g) /\ halves (komi g) 15 /\ (Z.abs 15 <= 200000)%Z /\ N.testbit (flag_score (gm_rule g)) 0 = true /\ N.testbit (flag_score (gm_rule g)) 2 = false /\
  lead 5 Black big_wall [(0, 0); (0, 2)] (flag_score (gm_rule g)) 15 = 3%Z /\
  gm_turn g = White /\ is_over g = false /\ position g (4, 2) = Some White /\ position g (3, 3) = Some White /\ position g (4, 4) = Some White /\
  rtc (careful dbg 5 Black [[(0, 0)]; [(0, 2)]]) g g' /\ is_over g' = true /\ position g' (3, 2) = Some White /\ position g' (4, 1) = Some Black.
Proof. exact (case_living dbg). Qed.

(** C135: more than that: every line of play in which that player puts no stone into the closed regions ends with the win, or with no loss, whatever else both players do; passing all the time is such a line. *)
Theorem C135_every_careful_line_wins dbg n b w c X E F g g' k2 : 2 <= n -> greach dbg n b w g -> forbids_suicide (gm_rule g) = true -> gm_outcome g = None ->
  alive n (position g) c X F -> NoDup X -> NoDup E -> (forall e, e ∈ E -> [e] ∈ F) ->
  is_f32 (komi g) -> halves (komi g) k2 -> (Z.abs k2 <= 200000)%Z ->
  N.testbit (flag_score (gm_rule g)) 0 = true -> N.testbit (flag_score (gm_rule g)) 2 = false ->
  rtc (careful dbg n c F) g g' -> is_over g' = true ->
  ((0 < lead n c X E (flag_score (gm_rule g)) k2)%Z -> won dbg c g') /\ ((0 <= lead n c X E (flag_score (gm_rule g)) k2)%Z -> not_lost dbg c g').
Proof. exact (living_line dbg n b w c X E F g g' k2). Qed.
Print Assumptions C135_every_careful_line_wins.

Example C135_every_careful_line_wins_case dbg : exists g b w g', 2 <= 5 /\ greach dbg 5 b w g /\ forbids_suicide (gm_rule g) = true /\ gm_outcome g = None /\
  alive 5 (position g) Black big_wall [[(0, 0)]; [(0, 2)]] /\ NoDup big_wall /\ NoDup [(0, 0); (0, 2)] /\ (forall e, e ∈ [(0, 0); (0, 2)] -> [e] ∈ [[(0, 0)]; [(0, 2)]]) /\
  is_f32 (komi g) /\ halves (komi g) 15 /\ (Z.abs 15 <= 200000)%Z /\ N.testbit (flag_score (gm_rule g)) 0 = true /\ N.testbit (flag_score (gm_rule g)) 2 = false /\
  lead 5 Black big_wall [(0, 0); (0, 2)] (flag_score (gm_rule g)) 15 = 3%Z /\
  gm_turn g = White /\ is_over g = false /\ position g (4, 2) = Some White /\ position g (3, 3) = Some White /\ position g (4, 4) = Some White /\
  rtc (careful dbg 5 Black [[(0, 0)]; [(0, 2)]]) g g' /\ is_over g' = true /\ position g' (3, 2) = Some White /\ position g' (4, 1) = Some Black.
Proof. exact (case_living dbg). Qed.

(** C135: not so when stones on the board do not count: such a position can be lost under the Japanese rule. *)
Theorem C135_territory_counting_refuted dbg : exists g b w, 2 <= 5 /\ greach dbg 5 b w g /\ forbids_suicide (gm_rule g) = true /\ gm_outcome g = None /\
  alive 5 (position g) Black big_wall [[(0, 0)]; [(0, 2)]] /\ is_f32 (komi g) /\ halves (komi g) 13 /\
  lead 5 Black big_wall [(0, 0); (0, 2)] (flag_score (gm_rule g)) 13 = 5%Z /\
  ~ forces dbg (5, 5) Black (not_lost dbg Black) g.
Proof. exact (territory_differs dbg). Qed.
Print Assumptions C135_territory_counting_refuted.

(** C135: nor on boards that are not square, whose points are miscounted: with ten of eighteen points and no komi Black loses. *)
Theorem C135_tall_boards_refuted dbg : exists g b w, Nat.divide 3 6 /\ rgreach dbg (6, 3) b w g /\ forbids_suicide (gm_rule g) = true /\ gm_outcome g = None /\
  flag_score (gm_rule g) = 1%N /\ is_over g = true /\
  ralive (6, 3) (position g) Black low_wall [[(5, 0)]; [(5, 2)]] /\ NoDup low_wall /\ length low_wall = 8 /\ 2 * (8 + 2) > 6 * 3 /\
  ~ forces dbg (6, 3) Black (not_lost dbg Black) g.
Proof. exact (tall_differs dbg). Qed.
Print Assumptions C135_tall_boards_refuted.
