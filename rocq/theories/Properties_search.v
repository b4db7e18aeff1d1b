(** The interface between games and the tree search: C91 *)
From stdpp Require Import relations sorting strings.
From Verif Require Import Glue Spec Reach Observe SearchClaims.
Local Notation length := Datatypes.length.
Open Scope nat_scope.

(** C91: a game that is not final offers moves; each of them can be carried out, is accepted by the checked play with the same result, gives the turn to the other player, and ends the game only if it is a second pass. *)
Theorem C91_interface dbg n b w g : greach dbg n b w g -> ~ no_slot_left g -> is_final g = false ->
  exists ms, legals_moves dbg g = Ok ms /\ ms <> [] /\
    forall m, m ∈ ms -> exists g', do_move dbg g m = Ok g' /\ try_play dbg g m = Ok (g', Accepted) /\
      player_turn g' = opp (player_turn g) /\ (is_final g' = true -> m = MPass /\ gm_passes g = 1%nat).
Proof. exact (search_interface dbg n b w g). Qed.
Print Assumptions C91_interface.

Example C91_interface_case dbg : exists g b w, greach dbg 3 b w g /\ ~ no_slot_left g /\ is_final g = false /\
  legals_moves dbg g = Ok [MPlay 0 0; MPlay 0 1; MPlay 0 2; MPlay 1 0; MPlay 1 2; MPlay 2 0; MPlay 2 1; MPlay 2 2].
Proof. exact (case_search dbg). Qed.

(** C91: a final game offers moves although the checked play refuses them; carrying one out makes the game go on. *)
Theorem C91_final_games_stay_final_refuted dbg : exists g g', lreach dbg 3 g /\ is_final g = true /\
  legals_moves dbg g = Ok [MPlay 0 0; MPlay 0 1; MPlay 0 2; MPlay 1 0; MPlay 1 2; MPlay 2 0; MPlay 2 1; MPlay 2 2] /\
  try_play dbg g (MPlay 0 1) = Ok (g, Refused EGamePaused) /\ do_move dbg g (MPlay 0 1) = Ok g' /\ is_final g' = false.
Proof. exact (final_goes_on dbg). Qed.
Print Assumptions C91_final_games_stay_final_refuted.

(** C91: the hash given to the search is the same for games with different positions, whose board hashes differ. *)
Theorem C91_hash_tells_positions_apart_refuted dbg : exists g g', lreach dbg 3 g /\ lreach dbg 3 g' /\ position g (1, 1) <> position g' (1, 1) /\
  zobrist_hash (gm_goban g) <> zobrist_hash (gm_goban g') /\ game_trait_hash g = game_trait_hash g'.
Proof. exact (search_hash_blind dbg). Qed.
Print Assumptions C91_hash_tells_positions_apart_refuted.
