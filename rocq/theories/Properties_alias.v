(** Moves on coordinates off the board: C89, C90 *)
From stdpp Require Import relations sorting strings.
From Verif Require Import Spec Reach Observe AliasSpec PlayoutSpec AreaSpec BelowSpec AliasFacts AliasClaims BelowFacts BelowClaims.
Local Notation length := Datatypes.length.
Open Scope nat_scope.

(** C89: the exact verdict of try_play on a coordinate off the board with the index of a point of the board, and the effect when it accepts: the stone lands on that point. *)
Theorem C89_verdict dbg n b w g x y p v : greach dbg n b w g -> alias n (x, y) p -> x < 255 -> y < 255 -> ~ no_slot_left g ->
  ((exists g', try_play dbg g (MPlay x y) = Ok (g', v)) <->
   first_reason (alias_reasons n (flag_illegal (gm_rule g)) (table_of g) (x, y) p) v) /\
  (forall g', try_play dbg g (MPlay x y) = Ok (g', Accepted) -> play dbg g (MPlay (fst p) (snd p)) = Ok g').
Proof. exact (alias_verdict dbg n b w g x y p v). Qed.
Print Assumptions C89_verdict.

Example C89_verdict_case dbg : exists g b w, greach dbg 5 b w g /\ alias 5 (1, 5) (2, 0) /\ alias 5 (1, 6) (2, 1) /\ ~ no_slot_left g /\
  (exists g', try_play dbg g (MPlay 1 5) = Ok (g', Accepted)) /\ try_play dbg g (MPlay 1 6) = Ok (g, Refused EPointNotEmpty) /\
  alias 5 (2, 9) (3, 4) /\ try_play dbg g (MPlay 2 9) = Ok (g, Refused ESuicide).
Proof. exact (case_alias dbg). Qed.

(** C89: under Japanese rules a ko is retaken at once through such a coordinate, and the position before the capture comes back. *)
Theorem C89_ko_kept_refuted dbg : exists g0 g1 g2,
  lreach dbg 5 g0 /\ flag_illegal (gm_rule g0) = flag_illegal JAPANESE /\
  try_play dbg g0 (MPlay 2 1) = Ok (g1, Accepted) /\
  try_play dbg g1 (MPlay 2 0) = Ok (g1, Refused EKo) /\
  try_play dbg g1 (MPlay 1 5) = Ok (g2, Accepted) /\ same_pos 5 (position g2) (position g0).
Proof. exact (alias_retakes dbg). Qed.
Print Assumptions C89_ko_kept_refuted.

(** C89: where suicide is forbidden a checked move through such a coordinate leaves a chain without liberties. *)
Theorem C89_suicide_kept_refuted dbg : exists g g',
  lreach dbg 3 g /\ forbids_suicide (gm_rule g) = true /\
  try_play dbg g (MPlay 2 0) = Ok (g, Refused ESuicide) /\
  try_play dbg g (MPlay 1 3) = Ok (g', Accepted) /\ ~ all_breathe 3 (position g').
Proof. exact (alias_suicides dbg). Qed.
Print Assumptions C89_suicide_kept_refuted.

(** C90: on which coordinates an unchecked move of a legal game returns, for every pair of numbers; on all others it panics. *)
Theorem C90_play_total dbg n g x y : lreach dbg n g -> 2 <= n -> (N.of_nat (length (chains (gm_goban g))) < 65535)%N ->
  (playable dbg n g x y -> exists g', play dbg g (MPlay x y) = Ok g') /\ (~ playable dbg n g x y -> play dbg g (MPlay x y) = Panic).
Proof. exact (play_total dbg n g x y). Qed.
Print Assumptions C90_play_total.

Example C90_play_total_case dbg : exists g, lreach dbg 9 g /\ 2 <= 9 /\ (N.of_nat (length (chains (gm_goban g))) < 65535)%N /\ below 9 (9, 3) /\ below 9 (20, 0) /\
  (forall q, on 9 q -> adj (9, 3) q -> position g q = None) /\ ~ swallowed 9 g (9, 3) /\
  playable dbg 9 g 9 3 /\ playable dbg 9 g 4 5 /\ ~ playable dbg 9 g 41 0.
Proof. exact (case_below dbg). Qed.

(** C90: a stone below the last row changes no point of the board and turns the move over; it stays in a slot that the board does not show, or is taken off at once and counted as a prisoner. *)
Theorem C90_below dbg n g p : lreach dbg n g -> below n p -> (N.of_nat (length (chains (gm_goban g))) < 65535)%N ->
  (dbg = true -> forall q, on n q -> adj p q -> position g q = None) ->
  exists g', play dbg g (MPlay (fst p) (snd p)) = Ok g' /\ gm_turn g' = opp (gm_turn g) /\ gm_ko_point g' = None /\ gm_passes g' = 0 /\
    (forall q, on n q -> get_color (gm_goban g') q = Ok (position g q)) /\
    (~ swallowed n g p -> get_color (gm_goban g') p = Ok (Some (gm_turn g)) /\ gm_prisoners g' = gm_prisoners g) /\
    (swallowed n g p -> get_color (gm_goban g') p = Ok None /\
       gm_prisoners g' = match gm_turn g with White => (fst (gm_prisoners g) + 1, snd (gm_prisoners g)) | Black => (fst (gm_prisoners g), snd (gm_prisoners g) + 1) end%N).
Proof. exact (play_below dbg n g p). Qed.
Print Assumptions C90_below.

Example C90_below_case dbg : exists g, lreach dbg 9 g /\ 2 <= 9 /\ (N.of_nat (length (chains (gm_goban g))) < 65535)%N /\ below 9 (9, 3) /\ below 9 (20, 0) /\
  (forall q, on 9 q -> adj (9, 3) q -> position g q = None) /\ ~ swallowed 9 g (9, 3) /\
  playable dbg 9 g 9 3 /\ playable dbg 9 g 4 5 /\ ~ playable dbg 9 g 41 0.
Proof. exact (case_below dbg). Qed.

(** C90: a checked move below the last row, which is no pass, is accepted and changes no point. *)
Theorem C90_accepted_moves_change_the_board_refuted dbg : exists g g', lreach dbg 3 g /\ below 3 (3, 1) /\ gm_turn g = Black /\
  try_play dbg g (MPlay 3 1) = Ok (g', Accepted) /\ gm_turn g' = White /\ gm_passes g' = 0%nat /\ same_pos 3 (position g') (position g) /\
  gm_prisoners g' = gm_prisoners g.
Proof. exact (below_idles dbg). Qed.
Print Assumptions C90_accepted_moves_change_the_board_refuted.

(** C90: in release builds, after such a move the capture of one stone gives two prisoners. *)
Theorem C90_prisoners_are_taken_stones_refuted : exists g g1 g2, lreach false 3 g /\ below 3 (3, 0) /\
  all_accepted false g [MPlay 3 0; MPlay 1 0; MPass] g1 /\ gm_prisoners g1 = (0, 0)%N /\
  try_play false g1 (MPlay 2 1) = Ok (g2, Accepted) /\
  (forall q, on 3 q -> q <> (2, 1) -> q <> (2, 0) -> position g2 q = position g1 q) /\ position g1 (2, 0) = Some Black /\ position g2 (2, 0) = None /\
  gm_prisoners g2 = (0, 2)%N.
Proof. exact below_counts_twice. Qed.
Print Assumptions C90_prisoners_are_taken_stones_refuted.

(** C90: in release builds and with suicide allowed, after such a move a stone without liberties stays on the board. *)
Theorem C90_surrounded_stones_are_taken_refuted : exists g g1, lreach false 3 g /\ below 3 (3, 0) /\
  all_accepted false g [MPlay 3 0; MPass; MPlay 1 0; MPass; MPlay 2 1] g1 /\
  position g1 (2, 0) = Some White /\ position g1 (1, 0) = Some Black /\ position g1 (2, 1) = Some Black /\ ~ all_breathe 3 (position g1).
Proof. exact below_saves. Qed.
Print Assumptions C90_surrounded_stones_are_taken_refuted.
