(** The interface between games and the tree search. *)
From stdpp Require Import relations sorting.
From Verif Require Import Glue Observe Reach.
From Verif Require Import MonadFacts Struct Push Inv Bridge GameFacts LegalFacts LegalsFacts ClaimFacts MoreClaims.
From Verif Require Import Samples SampleFacts RefuteFacts CaseFacts.
From Coq Require Import Lia.

Local Notation length := Datatypes.length.

Local Instance move_eq_dec : EqDecision move.
Proof. solve_decision. Defined.

Lemma search_interface dbg n b w g : greach dbg n b w g -> ~ no_slot_left g -> is_final g = false ->
  exists ms, legals_moves dbg g = Ok ms /\ ms <> [] /\
    forall m, m ∈ ms -> exists g', do_move dbg g m = Ok g' /\ try_play dbg g m = Ok (g', Accepted) /\
      player_turn g' = opp (player_turn g) /\ (is_final g' = true -> m = MPass /\ gm_passes g = 1%nat).
Proof.
  intros HG HS HF. unfold is_final, is_over in HF.
  destruct (gm_outcome g) as [o|] eqn:Eo; [discriminate HF|]. apply Nat.leb_gt in HF.
  destruct (claim_search_ok dbg n b w g HG HS ltac:(lia)) as (ms & E & H1 & H2 & H3). exists ms. split; [exact E|].
  split; [intros Hm; specialize (H1 Hm); unfold is_over in H1; rewrite Eo in H1; apply Nat.leb_le in H1; lia|].
  intros m Hm. destruct (H2 m Hm) as (g' & Et). exists g'.
  assert (Ep : play dbg g m = Ok g').
  { destruct (try_play_inv dbg g m g' _ Et) as [(e & Ee & _)|(_ & _ & Hpl)]; [discriminate Ee|exact Hpl]. }
  split; [exact Ep|]. split; [exact Et|].
  destruct (H3 m Hm) as [(x & y & -> & Ho)|Hms].
  - unfold play in Ep. apply bind_ok in Ep as (h & _ & Ep). apply bind_ok in Ep as ([[gb d] a] & _ & Ep). apply bind_ok in Ep as ([[gb2 pr] ko] & _ & Ep).
    injection Ep as <-. split; [reflexivity|]. unfold is_final, is_over. cbn [gm_outcome gm_passes]. rewrite Eo. discriminate.
  - subst ms. apply elem_of_list_singleton in Hm. subst m. unfold play in Ep. apply bind_ok in Ep as (u & _ & Ep). injection Ep as <-.
    split; [reflexivity|]. unfold is_final, is_over. cbn [gm_outcome gm_passes]. rewrite Eo. intros H. apply Nat.leb_le in H. split; [reflexivity|lia].
Qed.

(** a final game offers moves, all refused when checked; a move makes it go on *)
Lemma final_goes_on dbg : exists g g', lreach dbg 3 g /\ is_final g = true /\
  legals_moves dbg g = Ok [MPlay 0 0; MPlay 0 1; MPlay 0 2; MPlay 1 0; MPlay 1 2; MPlay 2 0; MPlay 2 1; MPlay 2 2] /\
  try_play dbg g (MPlay 0 1) = Ok (g, Refused EGamePaused) /\ do_move dbg g (MPlay 0 1) = Ok g' /\ is_final g' = false.
Proof.
  destruct (legal_sampleb dbg 3 JAPANESE [MPlay 1 1; MPass; MPass] (fun g => is_final g && 
    match legals_moves dbg g with Ok l => bool_decide (l = [MPlay 0 0; MPlay 0 1; MPlay 0 2; MPlay 1 0; MPlay 1 2; MPlay 2 0; MPlay 2 1; MPlay 2 2]) | _ => false end &&
    verdict_is (try_play dbg g (MPlay 0 1)) (Some EGamePaused) &&
    match do_move dbg g (MPlay 0 1) with Ok g' => negb (is_final g') | _ => false end) ltac:(lia)) as (g & L & F); [destruct dbg; vm_compute; reflexivity|].
  apply andb_true_iff in F as [F F4]. apply andb_true_iff in F as [F F3]. apply andb_true_iff in F as [F1 F2]. apply refused_is in F3.
  destruct (legals_moves dbg g) as [l| |] eqn:El; try discriminate F2. apply bool_decide_eq_true in F2. subst l.
  destruct (do_move dbg g (MPlay 0 1)) as [g'| |] eqn:Ed; try discriminate F4. apply negb_true_iff in F4.
  exists g, g'. repeat (split; [assumption|]). assumption.
Qed.

Lemma search_hash_blind dbg : exists g g', lreach dbg 3 g /\ lreach dbg 3 g' /\ position g (1, 1) <> position g' (1, 1) /\
  zobrist_hash (gm_goban g) <> zobrist_hash (gm_goban g') /\ game_trait_hash g = game_trait_hash g'.
Proof.
  destruct (legal_sampleb dbg 3 JAPANESE [MPlay 1 1] (fun g => has g (1, 1) (Some Black) && negb (zobrist_hash (gm_goban g) =? 0)%N) ltac:(lia)) as (g & L & F); [destruct dbg; vm_compute; reflexivity|].
  destruct (legal_sampleb dbg 3 JAPANESE [] (fun g => has g (1, 1) None && (zobrist_hash (gm_goban g) =? 0)%N) ltac:(lia)) as (g' & L' & F'); [destruct dbg; vm_compute; reflexivity|].
  apply andb_true_iff in F as [F1 F2], F' as [F1' F2']. apply bool_decide_eq_true in F1, F1'. apply negb_true_iff, N.eqb_neq in F2. apply N.eqb_eq in F2'.
  exists g, g'. split; [exact L|]. split; [exact L'|]. split; [|split; [congruence|reflexivity]]. rewrite F1, F1'; discriminate.
Qed.

Lemma case_search dbg : exists g b w, greach dbg 3 b w g /\ ~ no_slot_left g /\ is_final g = false /\
  legals_moves dbg g = Ok [MPlay 0 0; MPlay 0 1; MPlay 0 2; MPlay 1 0; MPlay 1 2; MPlay 2 0; MPlay 2 1; MPlay 2 2].
Proof.
  destruct (sampleb dbg 3 JAPANESE [MPlay 1 1] (fun g => bool_decide (length (chains (gm_goban g)) < 100) && negb (is_final g) &&
    match legals_moves dbg g with Ok l => bool_decide (l = [MPlay 0 0; MPlay 0 1; MPlay 0 2; MPlay 1 0; MPlay 1 2; MPlay 2 0; MPlay 2 1; MPlay 2 2]) | _ => false end) ltac:(lia))
    as (g & b & w & HG & _ & F); [destruct dbg; vm_compute; reflexivity|].
  apply andb_true_iff in F as [F F3]. apply andb_true_iff in F as [F1 F2]. apply bool_decide_eq_true in F1. apply negb_true_iff in F2.
  destruct (legals_moves dbg g) as [l| |] eqn:El; try discriminate F3. apply bool_decide_eq_true in F3. subst l.
  exists g, b, w. split; [exact HG|]. split; [unfold no_slot_left; lia|]. split; [exact F2|exact El].
Qed.
