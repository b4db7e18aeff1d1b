(** The example program of the README: C95 *)
From stdpp Require Import relations sorting strings.
From Verif Require Import Readme Spec Reach Observe AreaSpec ReadmeSpec ReadmeFacts ReadmeClaims.
Local Notation length := Datatypes.length.
Open Scope nat_scope.

(** C95: in a legal game a point that is empty and has only empty neighbours can always be played. *)
Theorem C95_open_point_accepted dbg n g x y : (2 <= n)%nat -> lreach dbg n g -> ~ no_slot_left g -> gm_passes g <> 2%nat ->
  open_point n (position g) (x, y) -> exists g', try_play dbg g (MPlay x y) = Ok (g', Accepted).
Proof. exact (open_accepted dbg n g x y). Qed.
Print Assumptions C95_open_point_accepted.

Example C95_open_point_accepted_case dbg : exists g, lreach dbg 9 g /\ ~ no_slot_left g /\ gm_passes g <> 2%nat /\ gm_ko_point g <> None /\ open_point 9 (position g) (7, 7) /\
  (5 * (count 9 (position g) Black + count 9 (position g) White) < 9 * 9)%nat.
Proof. exact (case_open dbg). Qed.

(** C95: so there is a legal move as long as fewer than a fifth of the points are occupied. *)
Theorem C95_roomy_board_has_legal_move dbg n g : (2 <= n)%nat -> lreach dbg n g -> ~ no_slot_left g -> gm_passes g <> 2%nat ->
  (5 * (count n (position g) Black + count n (position g) White) < n * n)%nat ->
  exists x y l g', open_point n (position g) (x, y) /\ legals dbg g = Ok l /\ (x, y) ∈ l /\ try_play dbg g (MPlay x y) = Ok (g', Accepted).
Proof. exact (roomy_has_legal dbg n g). Qed.
Print Assumptions C95_roomy_board_has_legal_move.

Example C95_roomy_board_has_legal_move_case dbg : exists g, lreach dbg 9 g /\ ~ no_slot_left g /\ gm_passes g <> 2%nat /\ gm_ko_point g <> None /\ open_point 9 (position g) (7, 7) /\
  (5 * (count 9 (position g) Black + count 9 (position g) White) < 9 * 9)%nat.
Proof. exact (case_open dbg). Qed.

(** C95: with the counter 35, and up to 73, the example reaches its end whatever the random choices: it plays that many accepted stones and the game is not over. *)
Theorem C95_example_runs i choose order dbg : (i <= 73)%nat -> chooses choose ->
  exists g ps g', game_new Nineteen CHINESE = Ok g /\ readme i choose order dbg = Ok g' /\ length ps = i /\ stones_accepted dbg 19 g ps g' /\ is_over g' = false /\
    (N.of_nat (count 19 (position g') Black + count 19 (position g') White) + fst (gm_prisoners g') + snd (gm_prisoners g') = N.of_nat i)%N.
Proof. exact (readme_runs i choose order dbg). Qed.
Print Assumptions C95_example_runs.

Example C95_example_runs_case dbg : chooses first_legal /\ (35 <= 73)%nat /\ exists g, readme 35 first_legal (fun l => l) dbg = Ok g /\ position g (1, 14) = Some Black /\ gm_prisoners g = (0%N, 1%N) /\ legals dbg g <> Ok [].
Proof. exact (case_readme dbg). Qed.

(** C95: with any counter up to 65535 the example either plays that many accepted stones, or it panics at the first position without a legal move. *)
Theorem C95_example_exact i choose order dbg : (N.of_nat i <= 65535)%N -> chooses choose ->
  exists g ps g', game_new Nineteen CHINESE = Ok g /\ stones_accepted dbg 19 g ps g' /\
    (length ps = i /\ readme i choose order dbg = Ok g' \/ (length ps < i)%nat /\ legals dbg g' = Ok [] /\ readme i choose order dbg = Panic).
Proof. exact (readme_exact i choose order dbg). Qed.
Print Assumptions C95_example_exact.

Example C95_example_exact_case dbg : chooses first_legal /\ (35 <= 73)%nat /\ exists g, readme 35 first_legal (fun l => l) dbg = Ok g /\ position g (1, 14) = Some Black /\ gm_prisoners g = (0%N, 1%N) /\ legals dbg g <> Ok [].
Proof. exact (case_readme dbg). Qed.

(** C95: every line of accepted stones is what the example plays for some random choices. *)
Theorem C95_every_line_possible ps order dbg g g' : (N.of_nat (length ps) <= 65535)%N -> game_new Nineteen CHINESE = Ok g -> stones_accepted dbg 19 g ps g' ->
  exists choose, chooses choose /\ readme (length ps) choose order dbg = Ok g'.
Proof. exact (readme_any_line ps order dbg g g'). Qed.
Print Assumptions C95_every_line_possible.

Example C95_every_line_possible_case dbg : exists g g', (N.of_nat (length stuck_line) <= 65535)%N /\ game_new Nineteen CHINESE = Ok g /\ stones_accepted dbg 19 g stuck_line g' /\ legals dbg g' = Ok [].
Proof. exact (case_line dbg). Qed.

(** C95: with any counter from 602 on, some random choices make the example panic: legals is empty although the game is not over. *)
Theorem C95_any_counter_refuted i order dbg : (602 <= i)%nat -> exists choose, chooses choose /\ readme i choose order dbg = Panic.
Proof. exact (readme_longer i order dbg). Qed.
Print Assumptions C95_any_counter_refuted.
