(** What a caught panic leaves behind: C124 *)
From stdpp Require Import relations sorting strings.
From Verif Require Import Spec Reach Observe UnwindSpec UnwindClaims Unwind.
Local Notation length := Datatypes.length.
Open Scope nat_scope.

(** C124: with the state kept after a panic, [play] answers as the model of Game.v does. *)
Theorem C124_play_answers_as_before dbg g m : snd (u_play dbg m g) = (let! _ := play dbg g m in Ok tt) /\
  forall g', play dbg g m = Ok g' -> fst (u_play dbg m g) = g'.
Proof. exact (answers_play dbg g m). Qed.
Print Assumptions C124_play_answers_as_before.

(** C124: the same for [try_play]. *)
Theorem C124_try_play_answers_as_before dbg g m : snd (u_try_play dbg m g) = (let! '(_, v) := try_play dbg g m in Ok v) /\
  forall g' v, try_play dbg g m = Ok (g', v) -> fst (u_try_play dbg m g) = g'.
Proof. exact (answers_try dbg g m). Qed.
Print Assumptions C124_try_play_answers_as_before.

(** C124: the same for [put_handicap]. *)
Theorem C124_handicap_answers_as_before dbg g pts : snd (u_put_handicap dbg pts g) = (let! _ := put_handicap dbg g pts in Ok tt) /\
  forall g', put_handicap dbg g pts = Ok g' -> fst (u_put_handicap dbg pts g) = g'.
Proof. exact (answers_handicap dbg g pts). Qed.
Print Assumptions C124_handicap_answers_as_before.

(** C124: the same for [push_many]. *)
Theorem C124_push_many_answers_as_before dbg g pts c : snd (u_push_many dbg pts c g) = (let! _ := push_many dbg g pts c in Ok tt) /\
  forall g', push_many dbg g pts c = Ok g' -> fst (u_push_many dbg pts c g) = g'.
Proof. exact (answers_push dbg g pts c). Qed.
Print Assumptions C124_push_many_answers_as_before.

(** C124: the same for [remove_chain]. *)
Theorem C124_remove_chain_answers_as_before dbg g k : snd (u_remove_chain dbg k g) = (let! _ := remove_chain dbg g k in Ok tt) /\
  forall g', remove_chain dbg g k = Ok g' -> fst (u_remove_chain dbg k g) = g'.
Proof. exact (answers_remove dbg g k). Qed.
Print Assumptions C124_remove_chain_answers_as_before.

(** C124: the panic of a pass after two passes leaves the game as it was. *)
Theorem C124_third_pass_leaves_the_game dbg g : (2 <= gm_passes g)%nat -> u_play dbg MPass g = (g, Panic).
Proof. exact (pass_leaves dbg g). Qed.
Print Assumptions C124_third_pass_leaves_the_game.

Example C124_third_pass_leaves_the_game_case dbg : exists g b w, greach dbg 9 b w g /\ 2 <= gm_passes g.
Proof. exact (case_paused dbg). Qed.

(** C124: the panic of a checked move far outside the board leaves the game as it was. *)
Theorem C124_try_far_leaves_the_game dbg n b w g x y : greach dbg n b w g -> 361 <= x * n + y -> gm_passes g <> 2 ->
  u_try_play dbg (MPlay x y) g = (g, Panic).
Proof. exact (far_try dbg n b w g x y). Qed.
Print Assumptions C124_try_far_leaves_the_game.

Example C124_try_far_leaves_the_game_case dbg : exists g b w, greach dbg 9 b w g /\ 361 <= 40 * 9 + 7 /\ gm_passes g <> 2 /\
  (dbg = false -> 9 = 19 -> 40 * 9 + 7 < 368 -> position g (18, 40 * 9 + 7 - 361) <> Some (gm_turn g)) /\
  gm_history g <> [] /\ position g (4, 4) = Some Black.
Proof. exact (case_far dbg). Qed.

(** C124: the panic of an unchecked move far outside the board changes the list of earlier boards only, but for the case of the next theorem. *)
Theorem C124_play_far_notes_the_board dbg n b w g x y : greach dbg n b w g -> 361 <= x * n + y ->
  (dbg = false -> n = 19 -> x * n + y < 368 -> position g (18, x * n + y - 361) <> Some (gm_turn g)) ->
  exists gl, u_play dbg (MPlay x y) g = (gl, Panic) /\ gm_goban gl = gm_goban g /\ rest_kept g gl /\ noted n g gl.
Proof. exact (far_play dbg n b w g x y). Qed.
Print Assumptions C124_play_far_notes_the_board.

Example C124_play_far_notes_the_board_case dbg : exists g b w, greach dbg 9 b w g /\ 361 <= 40 * 9 + 7 /\ gm_passes g <> 2 /\
  (dbg = false -> 9 = 19 -> 40 * 9 + 7 < 368 -> position g (18, 40 * 9 + 7 - 361) <> Some (gm_turn g)) /\
  gm_history g <> [] /\ position g (4, 4) = Some Black.
Proof. exact (case_far dbg). Qed.

(** C124: in a release build on 19x19, just below a stone of the side to move, the panic leaves every colour in place and a group whose stones cannot be listed any more. *)
Theorem C124_play_far_breaks_a_group b w g x y : greach false 19 b w g -> 361 <= x * 19 + y < 368 ->
  position g (18, x * 19 + y - 361) = Some (gm_turn g) ->
  exists gl k l, u_play false (MPlay x y) g = (gl, Panic) /\ rest_kept g gl /\ noted 19 g gl /\
    (forall p, position gl p = position g p) /\
    chain_stones false (gm_goban g) k = Ok l /\ ((18, x * 19 + y - 361), gm_turn g) ∈ l /\
    chain_stones false (gm_goban gl) k = Panic.
Proof. exact (far_broken b w g x y). Qed.
Print Assumptions C124_play_far_breaks_a_group.

Example C124_play_far_breaks_a_group_case : exists g b w, greach false 19 b w g /\ 361 <= 19 * 19 + 3 < 368 /\ position g (18, 19 * 19 + 3 - 361) = Some (gm_turn g).
Proof. exact case_broken. Qed.

(** C124: without superko no later sequence of checked moves can tell that the far move was made. *)
Theorem C124_far_harmless_without_superko dbg n b w g gl x y ms : greach dbg n b w g -> 361 <= x * n + y ->
  (dbg = false -> n = 19 -> x * n + y < 368 -> position g (18, x * n + y - 361) <> Some (gm_turn g)) ->
  flag_contains (flag_illegal (gm_rule g)) SUPERKO = false -> u_play dbg (MPlay x y) g = (gl, Panic) ->
  (forall a c, MPlay a c ∈ ms -> on n (a, c)) ->
  match attempts dbg g ms with
  | Ok (vs, g') => exists gl', attempts dbg gl ms = Ok (vs, gl') /\ gm_goban gl' = gm_goban g' /\ rest_kept g' gl'
  | Panic => attempts dbg gl ms = Panic
  | Diverge => attempts dbg gl ms = Diverge
  end.
Proof. exact (far_harmless dbg n b w g gl x y ms). Qed.
Print Assumptions C124_far_harmless_without_superko.

Example C124_far_harmless_without_superko_case dbg : exists g b w gl, greach dbg 9 b w g /\ 361 <= 40 * 9 + 7 /\
  (dbg = false -> 9 = 19 -> 40 * 9 + 7 < 368 -> position g (18, 40 * 9 + 7 - 361) <> Some (gm_turn g)) /\
  flag_contains (flag_illegal (gm_rule g)) SUPERKO = false /\ u_play dbg (MPlay 40 7) g = (gl, Panic) /\
  (forall a c, MPlay a c ∈ [MPlay 1 1; MPass; MPlay 3 3] -> on 9 (a, c)) /\
  gm_history gl <> gm_history g /\ exists g', attempts dbg g [MPlay 1 1; MPass; MPlay 3 3] = Ok ([Refused EKo; Accepted; Accepted], g').
Proof. exact (case_harmless dbg). Qed.

(** C124: with superko it can: the noted board makes a retake illegal that was legal. *)
Theorem C124_far_harmless_refuted dbg : exists g gl g' b w, greach dbg 4 b w g /\ u_play dbg (MPlay 100 100) g = (gl, Panic) /\
  try_play dbg g (MPlay 1 1) = Ok (g', Accepted) /\ try_play dbg gl (MPlay 1 1) = Ok (gl, Refused EKo).
Proof. exact (history_matters dbg). Qed.
Print Assumptions C124_far_harmless_refuted.

(** C124: the same colours do not mean the same game: in the broken case a later capture panics. *)
Theorem C124_colours_tell_refuted : exists g gl g' b w, greach false 19 b w g /\ u_play false (MPlay 19 0) g = (gl, Panic) /\
  (forall p, position gl p = position g p) /\
  foldM (fun g m => play false g m) around g = Ok g' /\ foldM (fun g m => play false g m) around gl = Panic.
Proof. exact broken_matters. Qed.
Print Assumptions C124_colours_tell_refuted.

(** C124: the panic for want of a group number leaves the colours, but counts one stone more, and takes a liberty from every opposing group next to the point. *)
Theorem C124_no_group_number_left dbg n b w g x y : greach dbg n b w g -> on n (x, y) -> position g (x, y) = None ->
  play dbg g (MPlay x y) = Panic ->
  exists gl, u_play dbg (MPlay x y) g = (gl, Panic) /\ rest_kept g gl /\ noted n g gl /\
    (forall p, on n p -> position gl p = position g p) /\
    zobrist_hash (gm_goban gl) = zobrist_hash (gm_goban g) /\
    number_of_stones (gm_goban gl) = one_more (gm_turn g) (number_of_stones (gm_goban g)) /\
    forall p, on n p -> adj (x, y) p -> position g p = Some (opp (gm_turn g)) -> exists before after,
      group_of (gm_goban g) p = Some before /\ group_of (gm_goban gl) p = Some after /\
      number_of_liberties before = S (number_of_liberties after) /\
      lib_get (x * n + y) (g_liberties before) = Ok true /\ lib_get (x * n + y) (g_liberties after) = Ok false.
Proof. exact (full_play dbg n b w g x y). Qed.
Print Assumptions C124_no_group_number_left.

Example C124_no_group_number_left_case dbg : exists g b w x y, greach dbg 2 b w g /\ on 2 (x, y) /\ position g (x, y) = None /\ play dbg g (MPlay x y) = Panic.
Proof. exact (case_full dbg). Qed.

(** C124: the assertion of a debug build comes too late to keep the board: an unchecked move on a stone replaces it and then panics. *)
Theorem C124_debug_leaves_the_board_refuted : exists g gl b w, greach true 9 b w g /\ u_play true (MPlay 4 4) g = (gl, Panic) /\
  position g (4, 4) = Some White /\ position gl (4, 4) = Some Black.
Proof. exact debug_overwrites. Qed.
Print Assumptions C124_debug_leaves_the_board_refuted.

(** C124: in a debug build a point off the board makes [push_many] panic after the points before it were set. *)
Theorem C124_push_many_keeps_the_first pre bad post c g g1 : push_many true g pre c = Ok g1 -> outside g1 bad ->
  u_push_many true (pre ++ bad :: post) c g = (g1, Panic).
Proof. exact (many_leaves pre bad post c g g1). Qed.
Print Assumptions C124_push_many_keeps_the_first.

Example C124_push_many_keeps_the_first_case : exists g g1 m, breach true 9 m g /\ push_many true g [(2, 2); (6, 6)] White = Ok g1 /\
  outside g1 (0, 9) /\ pos_of g1 (2, 2) = Some White /\ pos_of g (2, 2) = None.
Proof. exact case_many_left. Qed.

(** C124: likewise [put_handicap]; the handicap then counts all the points, and the turn is still that of before. *)
Theorem C124_handicap_keeps_the_first pre bad post g g1 : put_handicap true g pre = Ok g1 -> outside (gm_goban g1) bad ->
  exists gl, u_put_handicap true (pre ++ bad :: post) g = (gl, Panic) /\
    gm_goban gl = gm_goban g1 /\ gm_handicap gl = len_as_u32 (pre ++ bad :: post) /\
    gm_turn gl = gm_turn g /\ gm_passes gl = gm_passes g /\ gm_prisoners gl = gm_prisoners g /\
    gm_outcome gl = gm_outcome g /\ gm_rule gl = gm_rule g /\ gm_history gl = gm_history g /\
    gm_ko_point gl = gm_ko_point g.
Proof. exact (handicap_leaves pre bad post g g1). Qed.
Print Assumptions C124_handicap_keeps_the_first.

Example C124_handicap_keeps_the_first_case : exists g g1 b w, greach true 9 b w g /\ put_handicap true g [(2, 2); (6, 6)] = Ok g1 /\
  outside (gm_goban g1) (9, 0) /\ position g1 (2, 2) = Some Black /\ position g (2, 2) = None.
Proof. exact case_handicap_left. Qed.
