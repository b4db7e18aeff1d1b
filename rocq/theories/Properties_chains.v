(** The chains on the board: C100 *)
From stdpp Require Import relations sorting strings.
From Verif Require Import Spec Reach Observe ChainFacts.
Local Notation length := Datatypes.length.
Open Scope nat_scope.

(** C100: chains() lists one group for every chain on the board: each of the right colour, no chain twice, and none missing. *)
Theorem C100_one_group_per_chain dbg n m g : breach dbg n m g -> exists ps,
  Forall2 (fun grp p => on n p /\ group_of g p = Some grp /\ pos_of g p = Some (g_color grp)) (all_chains g) ps /\
  (forall i j p q, ps !! i = Some p -> ps !! j = Some q -> connected n (pos_of g) p q -> i = j) /\
  (forall q, on n q -> pos_of g q <> None -> exists p, p ∈ ps /\ connected n (pos_of g) p q).
Proof. exact (chains_listed dbg n m g). Qed.
Print Assumptions C100_one_group_per_chain.

Example C100_one_group_per_chain_case dbg : exists g m, lreach dbg 3 g /\ breach dbg 3 m (gm_goban g) /\ length (all_chains (gm_goban g)) = 4 /\ length (chains (gm_goban g)) = 5 /\
  position g (0, 0) = None /\ position g (1, 2) = Some Black.
Proof. exact (case_chains dbg). Qed.

(** C100: in a legal game there are at most four chains for every five points of the board, which is what MAX_CHAINS is for 361 points. *)
Theorem C100_at_most_four_fifths dbg n g : lreach dbg n g -> (5 * length (all_chains (gm_goban g)) <= 4 * (n * n))%nat.
Proof. exact (chains_bounded dbg n g). Qed.
Print Assumptions C100_at_most_four_fifths.

Example C100_at_most_four_fifths_case dbg : exists g m, lreach dbg 3 g /\ breach dbg 3 m (gm_goban g) /\ length (all_chains (gm_goban g)) = 4 /\ length (chains (gm_goban g)) = 5 /\
  position g (0, 0) = None /\ position g (1, 2) = Some Black.
Proof. exact (case_chains dbg). Qed.

(** C100: the numbers given to groups, however, exceed MAX_CHAINS = 288 in some legal game on the 2x2 board with at most three chains. *)
Theorem C100_numbers_bounded_refuted dbg : exists g, lreach dbg 2 g /\ (288 < length (chains (gm_goban g)))%nat /\ (length (all_chains (gm_goban g)) <= 3)%nat.
Proof. exact (slots_not_bounded dbg). Qed.
Print Assumptions C100_numbers_bounded_refuted.
