(** What a caught panic leaves behind on boards that are not square: C124 *)
From stdpp Require Import relations sorting strings.
From Verif Require Import Spec Reach Observe UnwindSpec RectSpec RectReach UnwindTallSpec UnwindTall UnwindTallCases Unwind.
Local Notation length := Datatypes.length.
Open Scope nat_scope.

(** C124: the panic of a checked move far outside a board whose width divides its height leaves the game as it was. *)
Theorem C124_try_far_leaves_the_game_tall dbg n b w g x y : Nat.divide (snd n) (fst n) -> rgreach dbg n b w g -> 361 <= x * fst n + y -> gm_passes g <> 2 ->
  u_try_play dbg (MPlay x y) g = (g, Panic).
Proof. exact (rfar_try dbg n b w g x y). Qed.
Print Assumptions C124_try_far_leaves_the_game_tall.

Example C124_try_far_leaves_the_game_tall_case dbg : exists g b w, Nat.divide 3 9 /\ rgreach dbg (9, 3) b w g /\ 361 <= 40 * 9 + 7 /\ gm_passes g <> 2 /\
  (dbg = false -> 9 = 19 -> 40 * 9 + 7 < 368 -> position g (18, (40 * 9 + 7) mod 3) <> Some (gm_turn g)) /\
  gm_history g <> [] /\ position g (4, 1) = Some Black.
Proof. exact (case_rfar dbg). Qed.

(** C124: on such a board the panic of an unchecked move far outside changes the list of earlier boards only, but for the case of the next theorem. *)
Theorem C124_play_far_notes_the_board_tall dbg n b w g x y : Nat.divide (snd n) (fst n) -> rgreach dbg n b w g -> 361 <= x * fst n + y ->
  (dbg = false -> fst n = 19 -> x * fst n + y < 368 -> position g (18, (x * fst n + y) mod snd n) <> Some (gm_turn g)) ->
  exists gl, u_play dbg (MPlay x y) g = (gl, Panic) /\ gm_goban gl = gm_goban g /\ rest_kept g gl /\ rnoted n g gl.
Proof. exact (rfar_play dbg n b w g x y). Qed.
Print Assumptions C124_play_far_notes_the_board_tall.

Example C124_play_far_notes_the_board_tall_case dbg : exists g b w, Nat.divide 3 9 /\ rgreach dbg (9, 3) b w g /\ 361 <= 40 * 9 + 7 /\ gm_passes g <> 2 /\
  (dbg = false -> 9 = 19 -> 40 * 9 + 7 < 368 -> position g (18, (40 * 9 + 7) mod 3) <> Some (gm_turn g)) /\
  gm_history g <> [] /\ position g (4, 1) = Some Black.
Proof. exact (case_rfar dbg). Qed.

(** C124: in a release build on a board of 19 rows, with a stone of the side to move in the last row and the column given by the index, the panic leaves every colour in place and a group whose stones cannot be listed any more. *)
Theorem C124_play_far_breaks_a_group_tall n b w g x y : Nat.divide (snd n) (fst n) -> rgreach false n b w g -> fst n = 19 -> 361 <= x * 19 + y < 368 ->
  position g (18, (x * 19 + y) mod snd n) = Some (gm_turn g) ->
  exists gl k l, u_play false (MPlay x y) g = (gl, Panic) /\ rest_kept g gl /\ rnoted n g gl /\
    (forall p, position gl p = position g p) /\
    chain_stones false (gm_goban g) k = Ok l /\ ((18, (x * 19 + y) mod snd n), gm_turn g) ∈ l /\
    chain_stones false (gm_goban gl) k = Panic.
Proof. exact (rfar_broken n b w g x y). Qed.
Print Assumptions C124_play_far_breaks_a_group_tall.

Example C124_play_far_breaks_a_group_tall_case : exists g b w, Nat.divide 1 19 /\ rgreach false (19, 1) b w g /\ 361 <= 19 * 19 + 3 < 368 /\
  position g (18, (19 * 19 + 3) mod 1) = Some (gm_turn g).
Proof. exact case_rbroken. Qed.

(** C124: on such a board without superko no later sequence of checked moves can tell that the far move was made. *)
Theorem C124_far_harmless_without_superko_tall dbg n b w g gl x y ms : Nat.divide (snd n) (fst n) -> rgreach dbg n b w g -> 361 <= x * fst n + y ->
  (dbg = false -> fst n = 19 -> x * fst n + y < 368 -> position g (18, (x * fst n + y) mod snd n) <> Some (gm_turn g)) ->
  flag_contains (flag_illegal (gm_rule g)) SUPERKO = false -> u_play dbg (MPlay x y) g = (gl, Panic) ->
  (forall a c, MPlay a c ∈ ms -> ron n (a, c)) ->
  match attempts dbg g ms with
  | Ok (vs, g') => exists gl', attempts dbg gl ms = Ok (vs, gl') /\ gm_goban gl' = gm_goban g' /\ rest_kept g' gl'
  | Panic => attempts dbg gl ms = Panic
  | Diverge => attempts dbg gl ms = Diverge
  end.
Proof. exact (rfar_harmless dbg n b w g gl x y ms). Qed.
Print Assumptions C124_far_harmless_without_superko_tall.

Example C124_far_harmless_without_superko_tall_case dbg : exists g b w gl, Nat.divide 3 9 /\ rgreach dbg (9, 3) b w g /\ 361 <= 40 * 9 + 7 /\
  (dbg = false -> 9 = 19 -> 40 * 9 + 7 < 368 -> position g (18, (40 * 9 + 7) mod 3) <> Some (gm_turn g)) /\
  flag_contains (flag_illegal (gm_rule g)) SUPERKO = false /\ u_play dbg (MPlay 40 7) g = (gl, Panic) /\
  (forall a c, MPlay a c ∈ [MPlay 4 1; MPass; MPlay 3 2] -> ron (9, 3) (a, c)) /\
  gm_history gl <> gm_history g /\
  exists g', attempts dbg g [MPlay 4 1; MPass; MPlay 3 2] = Ok ([Refused EPointNotEmpty; Accepted; Accepted], g').
Proof. exact (case_rharmless dbg). Qed.

(** C124: on such a board the panic for want of a group number leaves the colours, but counts one stone more, and takes a liberty from every opposing group next to the point. *)
Theorem C124_no_group_number_left_tall dbg n b w g x y : Nat.divide (snd n) (fst n) -> rgreach dbg n b w g -> ron n (x, y) -> position g (x, y) = None ->
  play dbg g (MPlay x y) = Panic ->
  exists gl, u_play dbg (MPlay x y) g = (gl, Panic) /\ rest_kept g gl /\ rnoted n g gl /\
    (forall p, ron n p -> position gl p = position g p) /\
    zobrist_hash (gm_goban gl) = zobrist_hash (gm_goban g) /\
    number_of_stones (gm_goban gl) = one_more (gm_turn g) (number_of_stones (gm_goban g)) /\
    forall p, ron n p -> adj (x, y) p -> position g p = Some (opp (gm_turn g)) -> exists before after,
      group_of (gm_goban g) p = Some before /\ group_of (gm_goban gl) p = Some after /\
      number_of_liberties before = S (number_of_liberties after) /\
      lib_get (x * fst n + y) (g_liberties before) = Ok true /\ lib_get (x * fst n + y) (g_liberties after) = Ok false.
Proof. exact (rfull_play dbg n b w g x y). Qed.
Print Assumptions C124_no_group_number_left_tall.

Example C124_no_group_number_left_tall_case dbg : exists g b w x y, Nat.divide 1 2 /\ rgreach dbg (2, 1) b w g /\ ron (2, 1) (x, y) /\ position g (x, y) = None /\
  play dbg g (MPlay x y) = Panic /\ exists p, ron (2, 1) p /\ adj (x, y) p /\ position g p = Some (opp (gm_turn g)).
Proof. exact (case_rfull dbg). Qed.
