(** Unchecked moves on occupied points, and walks that never end: C87, C88 *)
From stdpp Require Import relations sorting strings.
From Verif Require Import Spec Reach Observe OverSpec Sgf SgfSpec BuildSpec GroupMore LoopFacts OverFacts.
Local Notation length := Datatypes.length.
Open Scope nat_scope.

(** C87: where the model answers [Diverge] for the stones of a group, the iterator of the code yields a stone on every call, for ever. *)
Theorem C87_walk_for_ever dbg grp nx : group_iter dbg grp nx = Diverge ->
  forall m, exists it it' i, iter_after dbg nx (iter_new grp) m = Ok it /\ iter_next dbg nx it = Ok (it', Some i).
Proof. exact (walk_for_ever dbg grp nx). Qed.
Print Assumptions C87_walk_for_ever.

Example C87_walk_for_ever_case : exists grp nx, length nx = 361 /\ group_iter false grp nx = Diverge.
Proof. exact case_walk. Qed.

(** C87: in release builds, after an unchecked move on an occupied point, a move on an empty point does not return, checked or unchecked; the walk along a group has become endless. *)
Theorem C87_unchecked_play_returns_refuted : exists g b w g1,
  greach false 3 b w g /\ position g (0, 1) = Some Black /\ gm_turn g = White /\
  play false g (MPlay 0 1) = Ok g1 /\ position g1 (1, 0) = None /\
  play false g1 (MPlay 1 0) = Diverge /\ try_play false g1 (MPlay 1 0) = Diverge /\
  exists k grp, chains (gm_goban g1) !! k = Some (Some grp) /\ group_iter false grp (next_stone (gm_goban g1)) = Diverge.
Proof. exact walk_hangs. Qed.
Print Assumptions C87_unchecked_play_returns_refuted.

(** C87: the import of a supported record of a 9 x 9 game, with alternating colours and all moves on the board, does not return in release builds and panics in debug builds. *)
Theorem C87_import_returns_refuted : exists root rest, supported false root rest /\ supported true root rest /\
  alternate (first_player root) (List.map fst (omap first_move rest)) /\
  (forall m, m ∈ record_moves rest -> exists x y, m = MPlay x y /\ on 9 (x, y)) /\
  from_sgf_nodes false (root :: rest) = Diverge /\ from_sgf_nodes true (root :: rest) = Panic.
Proof. exact import_hangs. Qed.
Print Assumptions C87_import_returns_refuted.

(** C88: in release builds, on a board where every chain breathes, [push] on an occupied point gives the point the colour of the stone and leaves the other points as they are. *)
Theorem C88_push_release n m g p c : breach false n m g -> all_breathe n (pos_of g) -> on n p -> pos_of g p <> None ->
  (N.of_nat (length (chains g)) < 65535)%N ->
  exists g', push false g p c = Ok g' /\ forall q, on n q -> get_color g' q = Ok (put (pos_of g) p c q).
Proof. exact (push_over_release n m g p c). Qed.
Print Assumptions C88_push_release.

Example C88_push_release_case dbg : exists m g, breach dbg 3 m g /\ on 3 (1, 1) /\ pos_of g (1, 1) = Some Black /\ all_breathe 3 (pos_of g) /\
  (N.of_nat (length (chains g)) < 65535)%N /\ forall q, on 3 q -> adj (1, 1) q -> pos_of g q = None.
Proof. exact (case_over_push dbg). Qed.

(** C88: in debug builds [push] on an occupied point returns when no neighbour is occupied, and panics when one is. *)
Theorem C88_push_debug n m g p c : breach true n m g -> on n p -> pos_of g p <> None -> (N.of_nat (length (chains g)) < 65535)%N ->
  ((forall q, on n q -> adj p q -> pos_of g q = None) ->
     exists g', push true g p c = Ok g' /\ forall q, on n q -> get_color g' q = Ok (put (pos_of g) p c q)) /\
  ((exists q, on n q /\ adj p q /\ pos_of g q <> None) -> push true g p c = Panic).
Proof. exact (push_over_debug n m g p c). Qed.
Print Assumptions C88_push_debug.

Example C88_push_debug_case dbg : exists m g, breach dbg 3 m g /\ on 3 (1, 1) /\ pos_of g (1, 1) = Some Black /\ all_breathe 3 (pos_of g) /\
  (N.of_nat (length (chains g)) < 65535)%N /\ forall q, on 3 q -> adj (1, 1) q -> pos_of g q = None.
Proof. exact (case_over_push dbg). Qed.

(** C88: in release builds one unchecked [play] on an occupied point of a legal game returns; nothing is captured, and the point takes the colour of the side to move, except that it becomes empty if suicide is allowed and all its neighbours are stones of the opponent. *)
Theorem C88_play_release n g x y : lreach false n g -> on n (x, y) -> position g (x, y) <> None -> (N.of_nat (length (chains (gm_goban g))) < 65535)%N ->
  exists g', play false g (MPlay x y) = Ok g' /\ gm_turn g' = opp (gm_turn g) /\ gm_ko_point g' = None /\ gm_passes g' = 0 /\
    (forall q, on n q -> q <> (x, y) -> get_color (gm_goban g') q = Ok (position g q)) /\
    (~ swallowed n g (x, y) -> get_color (gm_goban g') (x, y) = Ok (Some (gm_turn g)) /\ gm_prisoners g' = gm_prisoners g) /\
    (swallowed n g (x, y) -> get_color (gm_goban g') (x, y) = Ok None /\
       gm_prisoners g' = match gm_turn g with White => (fst (gm_prisoners g) + 1, snd (gm_prisoners g)) | Black => (fst (gm_prisoners g), snd (gm_prisoners g) + 1) end%N).
Proof. exact (play_over_release n g x y). Qed.
Print Assumptions C88_play_release.

Example C88_play_release_case dbg : exists g, lreach dbg 3 g /\ on 3 (1, 1) /\ position g (1, 1) = Some Black /\ gm_turn g = White /\
  (N.of_nat (length (chains (gm_goban g))) < 65535)%N /\ forall q, on 3 q -> adj (1, 1) q -> position g q = None.
Proof. exact (case_over_lone dbg). Qed.

Example C88_play_release_case2 dbg : exists g, lreach dbg 3 g /\ on 3 (0, 0) /\ position g (0, 0) = Some Black /\ gm_turn g = White /\
  (N.of_nat (length (chains (gm_goban g))) < 65535)%N /\ swallowed 3 g (0, 0) /\ (exists q, on 3 q /\ adj (0, 0) q /\ position g q <> None).
Proof. exact (case_over_corner dbg). Qed.

(** C88: in debug builds it returns when no neighbour is occupied, and panics when one is. *)
Theorem C88_play_debug n g x y : lreach true n g -> on n (x, y) -> position g (x, y) <> None -> (N.of_nat (length (chains (gm_goban g))) < 65535)%N ->
  ((forall q, on n q -> adj (x, y) q -> position g q = None) ->
     exists g', play true g (MPlay x y) = Ok g' /\ forall q, on n q -> get_color (gm_goban g') q = Ok (put (position g) (x, y) (gm_turn g) q)) /\
  ((exists q, on n q /\ adj (x, y) q /\ position g q <> None) -> play true g (MPlay x y) = Panic).
Proof. exact (play_over_debug n g x y). Qed.
Print Assumptions C88_play_debug.

Example C88_play_debug_case dbg : exists g, lreach dbg 3 g /\ on 3 (1, 1) /\ position g (1, 1) = Some Black /\ gm_turn g = White /\
  (N.of_nat (length (chains (gm_goban g))) < 65535)%N /\ forall q, on 3 q -> adj (1, 1) q -> position g q = None.
Proof. exact (case_over_lone dbg). Qed.

Example C88_play_debug_case2 dbg : exists g, lreach dbg 3 g /\ on 3 (0, 0) /\ position g (0, 0) = Some Black /\ gm_turn g = White /\
  (N.of_nat (length (chains (gm_goban g))) < 65535)%N /\ swallowed 3 g (0, 0) /\ (exists q, on 3 q /\ adj (0, 0) q /\ position g q <> None).
Proof. exact (case_over_corner dbg). Qed.
