(** What debug and release builds answer: C119 *)
From stdpp Require Import relations sorting strings.
From Verif Require Import Spec Reach Observe Samples RectSpec TableSpec RectTableSpec Sgf Builder Simulation Bench AnyClaims RefineClaims.
Local Notation length := Datatypes.length.
Open Scope nat_scope.

(** C119: if a debug build answers a list of calls, on whatever game, a release build gives the same answers and the same game. *)
Theorem C119_calls ops g r : calls true g ops = Ok r -> calls false g ops = Ok r.
Proof. exact (builds_calls ops g r). Qed.
Print Assumptions C119_calls.

Example C119_calls_case : exists g g1 g2,
  game_new (Custom 5 4) JAPANESE = Ok g /\
  calls true g [OTry (MPlay 1 0)] = Ok (g1, [Some Accepted]) /\ calls false g [OTry (MPlay 1 0)] = Ok (g1, [Some Accepted]) /\
  try_play true g1 (MPlay 0 0) = Panic /\ try_play false g1 (MPlay 0 0) = Ok (g2, Accepted).
Proof. exact case_builds_calls. Qed.

(** C119: the same for the functions on boards. *)
Theorem C119_boards gb :
  (forall p c r, push true gb p c = Ok r -> push false gb p c = Ok r) /\
  (forall l c r, push_many true gb l c = Ok r -> push_many false gb l c = Ok r) /\
  (forall v r, goban_from true v = Ok r -> goban_from false v = Ok r) /\
  (forall p r, get_connected_points true gb p = Ok r -> get_connected_points false gb p = Ok r) /\
  (forall p r, get_connected_groups true gb p = Ok r -> get_connected_groups false gb p = Ok r) /\
  (forall k r, chain_stones true gb k = Ok r -> chain_stones false gb k = Ok r) /\
  (forall c r, get_coords_by_color true gb c = Ok r -> get_coords_by_color false gb c = Ok r) /\
  (forall p r, get_liberties true gb p = Ok r -> get_liberties false gb p = Ok r) /\
  (forall p r, get_group_from_point true gb p = Ok r -> get_group_from_point false gb p = Ok r) /\
  (forall order r, get_territories order true gb = Ok r -> get_territories order false gb = Ok r).
Proof. exact (builds_boards gb). Qed.
Print Assumptions C119_boards.

Example C119_boards_case : exists r l,
  push true broken (3, 3)%nat Black = Ok r /\ push false broken (3, 3)%nat Black = Ok r /\ pos_of r (3, 3)%nat = Some Black /\
  push true broken (0, 1)%nat Black = Panic /\
  get_connected_points true broken (3, 2)%nat = Ok l /\ get_connected_points false broken (3, 2)%nat = Ok l /\ length l = 4%nat.
Proof. exact case_builds_boards. Qed.

(** C119: the same for the questions about a game. *)
Theorem C119_queries g :
  (forall p flags r, check_point_by true g p flags = Ok r -> check_point_by false g p flags = Ok r) /\
  (forall s r, check_eye true g s = Ok r -> check_eye false g s = Ok r) /\
  (forall flags r, legals_by true g flags = Ok r -> legals_by false g flags = Ok r) /\
  (forall r, pseudo_legals_vec true g = Ok r -> pseudo_legals_vec false g = Ok r) /\
  (forall order flags r, calculate_score_by order true g flags = Ok r -> calculate_score_by order false g flags = Ok r) /\
  (forall order r, outcome order true g = Ok r -> outcome order false g = Ok r) /\
  (forall r, get_floating_stones true g = Ok r -> get_floating_stones false g = Ok r).
Proof. exact (builds_queries g). Qed.
Print Assumptions C119_queries.

Example C119_queries_case : exists g g1 l,
  game_new (Custom 5 4) JAPANESE = Ok g /\ calls true g [OTry (MPlay 1 0)] = Ok (g1, [Some Accepted]) /\
  check_point_by true g1 (2, 2)%nat SUICIDE = Ok None /\ check_point_by false g1 (2, 2)%nat SUICIDE = Ok None /\
  legals_by true g1 0%N = Ok l /\ legals_by false g1 0%N = Ok l /\ length l = 18%nat.
Proof. exact case_builds_queries. Qed.

(** C119: the same for builders and imported records. *)
Theorem C119_builders :
  (forall b r, snd (build true b) = Ok r -> snd (build false b) = Ok r) /\
  (forall nodes r, from_sgf_nodes true nodes = Ok r -> from_sgf_nodes false nodes = Ok r).
Proof. exact builds_builders. Qed.
Print Assumptions C119_builders.

Example C119_builders_case : exists r r' g,
  snd (build true (set_moves (set_size builder_default (5, 4)%nat) [MPlay 1 0])) = Ok r /\ pos_of (gm_goban r) (1, 0)%nat = Some Black /\
  from_sgf_nodes true [[TSize 5 4]; [TMove Black (SMove 1 2)]] = Ok r' /\ pos_of (gm_goban r') (1, 0)%nat = Some Black /\
  from_sgf_nodes true [[TSize 5 4; TAdd Black 0 1]] = Panic /\ from_sgf_nodes false [[TSize 5 4; TAdd Black 0 1]] = Ok g.
Proof. exact case_builds_builders. Qed.

(** C119: the same for playouts, the search for dead stones and perft, with the same random choices and hash orders. *)
Theorem C119_simulations g :
  (forall fuel i shuffles r, playout fuel i shuffles true g = Ok r -> playout fuel i shuffles false g = Ok r) /\
  (forall order fuel nb chs r, dead_stones_wth_simulations order fuel nb chs true g = Ok r -> dead_stones_wth_simulations order fuel nb chs false g = Ok r) /\
  (forall depth r, perft true g depth = Ok r -> perft false g depth = Ok r).
Proof. exact (builds_simulations g). Qed.
Print Assumptions C119_simulations.

Example C119_simulations_case : exists g h h' h'',
  game_new (Custom 5 4) CHINESE = Ok g /\ perft true g 2 = Ok 357%N /\ perft false g 2 = Ok 357%N /\ perft true g 3 = Panic /\ perft false g 3 = Ok 5635%N /\
  game_new (Custom 3 1) CHINESE = Ok h /\ playout 100 0 (fun _ l => l) true h = Ok h' /\ length (gm_history h') = 1%nat /\
  game_new (Custom 3 2) CHINESE = Ok h'' /\ playout 100 0 (fun _ l => l) true h'' = Panic /\ answered (playout 100 0 (fun _ l => l) false h'') = true.
Proof. exact case_builds_simulations. Qed.

(** C119: the converse is false: on a board of five rows and four columns a release build answers two checked moves where a debug build panics. *)
Theorem C119_converse_refuted : exists g ops r, game_new (Custom 5 4) JAPANESE = Ok g /\ (forall o, o ∈ ops -> rguarded (5, 4)%nat o) /\
  calls false g ops = Ok r /\ calls true g ops = Panic.
Proof. exact builds_converse. Qed.
Print Assumptions C119_converse_refuted.
