(** Claims about what debug and release builds answer. *)
From Verif Require Import Sgf Simulation Bench Readme Ops TableSpec Spec Reach GameFacts RectTableSpec Refine AnyClaims.
From Coq Require Import Lia.

Lemma builds_calls ops g r : calls true g ops = Ok r -> calls false g ops = Ok r.
Proof. apply rf_calls. Qed.

Lemma builds_boards gb :
  (forall p c r, push true gb p c = Ok r -> push false gb p c = Ok r) /\
  (forall l c r, push_many true gb l c = Ok r -> push_many false gb l c = Ok r) /\
  (forall v r, goban_from true v = Ok r -> goban_from false v = Ok r) /\
  (forall p r, get_connected_points true gb p = Ok r -> get_connected_points false gb p = Ok r) /\
  (forall p r, get_connected_groups true gb p = Ok r -> get_connected_groups false gb p = Ok r) /\
  (forall k r, chain_stones true gb k = Ok r -> chain_stones false gb k = Ok r) /\
  (forall c r, get_coords_by_color true gb c = Ok r -> get_coords_by_color false gb c = Ok r) /\
  (forall p r, get_liberties true gb p = Ok r -> get_liberties false gb p = Ok r) /\
  (forall p r, get_group_from_point true gb p = Ok r -> get_group_from_point false gb p = Ok r) /\
  (forall order r, get_territories order true gb = Ok r -> get_territories order false gb = Ok r).
Proof.
  repeat split; intros.
  - apply rf_push; assumption.
  - apply rf_push_many; assumption.
  - apply rf_goban_from; assumption.
  - apply rf_get_connected_points; assumption.
  - apply rf_get_connected_groups; assumption.
  - apply rf_chain_stones; assumption.
  - apply rf_get_coords_by_color; assumption.
  - apply rf_get_liberties; assumption.
  - apply rf_get_group_from_point; assumption.
  - apply rf_get_territories; assumption.
Qed.

Lemma builds_queries g :
  (forall p flags r, check_point_by true g p flags = Ok r -> check_point_by false g p flags = Ok r) /\
  (forall s r, check_eye true g s = Ok r -> check_eye false g s = Ok r) /\
  (forall flags r, legals_by true g flags = Ok r -> legals_by false g flags = Ok r) /\
  (forall r, pseudo_legals_vec true g = Ok r -> pseudo_legals_vec false g = Ok r) /\
  (forall order flags r, calculate_score_by order true g flags = Ok r -> calculate_score_by order false g flags = Ok r) /\
  (forall order r, outcome order true g = Ok r -> outcome order false g = Ok r) /\
  (forall r, get_floating_stones true g = Ok r -> get_floating_stones false g = Ok r).
Proof.
  repeat split; intros.
  - apply rf_check_point_by; assumption.
  - apply rf_check_eye; assumption.
  - apply rf_legals_by; assumption.
  - apply rf_pseudo_legals_vec; assumption.
  - apply rf_score; assumption.
  - apply rf_outcome; assumption.
  - apply rf_floating; assumption.
Qed.

Lemma builds_builders :
  (forall b r, snd (build true b) = Ok r -> snd (build false b) = Ok r) /\
  (forall nodes r, from_sgf_nodes true nodes = Ok r -> from_sgf_nodes false nodes = Ok r).
Proof. split; intros; [apply rf_build|apply rf_from_sgf]; assumption. Qed.

Lemma builds_simulations g :
  (forall fuel i shuffles r, playout fuel i shuffles true g = Ok r -> playout fuel i shuffles false g = Ok r) /\
  (forall order fuel nb chs r, dead_stones_wth_simulations order fuel nb chs true g = Ok r -> dead_stones_wth_simulations order fuel nb chs false g = Ok r) /\
  (forall depth r, perft true g depth = Ok r -> perft false g depth = Ok r).
Proof.
  repeat split; intros.
  - apply rf_playout; assumption.
  - apply rf_dead_simulations; assumption.
  - apply rf_perft; assumption.
Qed.

(** ** Cases: a board of five rows and four columns *)

Lemma case_builds_calls : exists g g1 g2,
  game_new (Custom 5 4) JAPANESE = Ok g /\
  calls true g [OTry (MPlay 1 0)] = Ok (g1, [Some Accepted]) /\ calls false g [OTry (MPlay 1 0)] = Ok (g1, [Some Accepted]) /\
  try_play true g1 (MPlay 0 0) = Panic /\ try_play false g1 (MPlay 0 0) = Ok (g2, Accepted).
Proof.
  assert (F : match odd_start with
              | Ok g => match calls true g [OTry (MPlay 1 0)] with
                        | Ok (g1, [Some Accepted]) =>
                            panics (try_play true g1 (MPlay 0 0)) && match try_play false g1 (MPlay 0 0) with Ok (_, Accepted) => true | _ => false end
                        | _ => false end
              | _ => false end = true) by (vm_compute; reflexivity).
  unfold odd_start in F. destruct (game_new (Custom 5 4) JAPANESE) as [g| |]; [|discriminate..].
  destruct (calls true g [OTry (MPlay 1 0)]) as [[g1 [|[[]|] [|]]]| |] eqn:E; try discriminate.
  apply andb_true_iff in F as [F1 F2]. destruct (try_play false g1 (MPlay 0 0)) as [[g2 []]| |] eqn:E2; try discriminate.
  exists g, g1, g2. split; [reflexivity|]. split; [exact E|]. split; [exact (builds_calls _ _ _ E)|]. split; [apply panics_spec, F1|exact E2].
Qed.

(** A board that no play can make: the cell of (0,0) names a group that is not there. *)
Definition broken : goban := mkGoban [] (<[ 0%nat := Some 7%nat ]> (replicate 361 None)) (replicate 361 0%nat) (5, 4)%nat 0%N.

Lemma case_builds_boards : exists r l,
  push true broken (3, 3)%nat Black = Ok r /\ push false broken (3, 3)%nat Black = Ok r /\ pos_of r (3, 3)%nat = Some Black /\
  push true broken (0, 1)%nat Black = Panic /\
  get_connected_points true broken (3, 2)%nat = Ok l /\ get_connected_points false broken (3, 2)%nat = Ok l /\ length l = 4%nat.
Proof.
  assert (F : match push true broken (3, 3)%nat Black with Ok r => mcolor_eqb (pos_of r (3, 3)%nat) (Some Black) | _ => false end = true) by (vm_compute; reflexivity).
  destruct (push true broken (3, 3)%nat Black) as [r| |] eqn:E; [|discriminate..].
  destruct (mcolor_eqb_spec (pos_of r (3, 3)%nat) (Some Black)) as [G|]; [|discriminate].
  exists r, [((4, 2), None); ((2, 2), None); ((3, 3), None); ((3, 1), None)]%nat. split; [reflexivity|]. split; [exact (rf_push _ _ _ _ E)|]. split; [exact G|].
  split; [vm_compute; reflexivity|]. split; [vm_compute; reflexivity|]. split; vm_compute; reflexivity.
Qed.

Lemma case_builds_queries : exists g g1 l,
  game_new (Custom 5 4) JAPANESE = Ok g /\ calls true g [OTry (MPlay 1 0)] = Ok (g1, [Some Accepted]) /\
  check_point_by true g1 (2, 2)%nat SUICIDE = Ok None /\ check_point_by false g1 (2, 2)%nat SUICIDE = Ok None /\
  legals_by true g1 0%N = Ok l /\ legals_by false g1 0%N = Ok l /\ length l = 18%nat.
Proof.
  assert (F : match odd_start with
              | Ok g => match calls true g [OTry (MPlay 1 0)] with
                        | Ok (g1, [Some Accepted]) =>
                            match check_point_by true g1 (2, 2)%nat SUICIDE, legals_by true g1 0%N with Ok None, Ok l => (length l =? 18)%nat | _, _ => false end
                        | _ => false end
              | _ => false end = true) by (vm_compute; reflexivity).
  unfold odd_start in F. destruct (game_new (Custom 5 4) JAPANESE) as [g| |]; [|discriminate..].
  destruct (calls true g [OTry (MPlay 1 0)]) as [[g1 [|[[]|] [|]]]| |] eqn:E; try discriminate.
  destruct (check_point_by true g1 (2, 2)%nat SUICIDE) as [[]| |] eqn:E1; try discriminate.
  destruct (legals_by true g1 0%N) as [l| |] eqn:E2; try discriminate. apply Nat.eqb_eq in F.
  exists g, g1, l. split; [reflexivity|]. split; [exact E|]. split; [exact E1|]. split; [exact (rf_check_point_by _ _ _ _ E1)|].
  split; [exact E2|]. split; [exact (rf_legals_by _ _ _ E2)|exact F].
Qed.

Lemma case_builds_builders : exists r r' g,
  snd (build true (set_moves (set_size builder_default (5, 4)%nat) [MPlay 1 0])) = Ok r /\ pos_of (gm_goban r) (1, 0)%nat = Some Black /\
  from_sgf_nodes true [[TSize 5 4]; [TMove Black (SMove 1 2)]] = Ok r' /\ pos_of (gm_goban r') (1, 0)%nat = Some Black /\
  from_sgf_nodes true [[TSize 5 4; TAdd Black 0 1]] = Panic /\ from_sgf_nodes false [[TSize 5 4; TAdd Black 0 1]] = Ok g.
Proof.
  assert (F : match snd (build true (set_moves (set_size builder_default (5, 4)%nat) [MPlay 1 0])) with Ok r => mcolor_eqb (pos_of (gm_goban r) (1, 0)%nat) (Some Black) | _ => false end = true) by (vm_compute; reflexivity).
  assert (F' : match from_sgf_nodes true [[TSize 5 4]; [TMove Black (SMove 1 2)]] with Ok r => mcolor_eqb (pos_of (gm_goban r) (1, 0)%nat) (Some Black) | _ => false end = true) by (vm_compute; reflexivity).
  assert (F2 : answered (from_sgf_nodes false [[TSize 5 4; TAdd Black 0 1]]) = true) by (vm_compute; reflexivity).
  destruct (snd (build true (set_moves (set_size builder_default (5, 4)%nat) [MPlay 1 0]))) as [r| |]; [|discriminate F..].
  destruct (from_sgf_nodes true [[TSize 5 4]; [TMove Black (SMove 1 2)]]) as [r'| |]; [|discriminate F'..].
  destruct (from_sgf_nodes false [[TSize 5 4; TAdd Black 0 1]]) as [g| |]; [|discriminate F2..].
  destruct (mcolor_eqb_spec (pos_of (gm_goban r) (1, 0)%nat) (Some Black)) as [G|]; [|discriminate].
  destruct (mcolor_eqb_spec (pos_of (gm_goban r') (1, 0)%nat) (Some Black)) as [G'|]; [|discriminate].
  exists r, r', g. split; [reflexivity|]. split; [exact G|]. split; [reflexivity|]. split; [exact G'|]. split; [vm_compute; reflexivity|reflexivity].
Qed.

Lemma case_builds_simulations : exists g h h' h'',
  game_new (Custom 5 4) CHINESE = Ok g /\ perft true g 2 = Ok 357%N /\ perft false g 2 = Ok 357%N /\ perft true g 3 = Panic /\ perft false g 3 = Ok 5635%N /\
  game_new (Custom 3 1) CHINESE = Ok h /\ playout 100 0 (fun _ l => l) true h = Ok h' /\ length (gm_history h') = 1%nat /\
  game_new (Custom 3 2) CHINESE = Ok h'' /\ playout 100 0 (fun _ l => l) true h'' = Panic /\ answered (playout 100 0 (fun _ l => l) false h'') = true.
Proof.
  assert (F : match game_new (Custom 5 4) CHINESE with
              | Ok g => match perft true g 2, perft false g 2, perft true g 3, perft false g 3 with Ok a, Ok b, Panic, Ok c => (a =? 357)%N && (b =? 357)%N && (c =? 5635)%N | _, _, _, _ => false end
              | _ => false end = true) by (vm_compute; reflexivity).
  assert (F' : match game_new (Custom 3 1) CHINESE with
               | Ok h => match playout 100 0 (fun _ l => l) true h with Ok h' => (length (gm_history h') =? 1)%nat | _ => false end
               | _ => false end = true) by (vm_compute; reflexivity).
  assert (F'' : match game_new (Custom 3 2) CHINESE with
               | Ok h => panics (playout 100 0 (fun _ l => l) true h) && answered (playout 100 0 (fun _ l => l) false h)
               | _ => false end = true) by (vm_compute; reflexivity).
  destruct (game_new (Custom 5 4) CHINESE) as [g| |]; [|discriminate F..]. destruct (game_new (Custom 3 1) CHINESE) as [h| |]; [|discriminate F'..].
  destruct (game_new (Custom 3 2) CHINESE) as [h''| |]; [|discriminate F''..].
  destruct (perft true g 2) as [a| |] eqn:E1; [|discriminate F..]. destruct (perft false g 2) as [b| |] eqn:E2; [|discriminate F..].
  destruct (perft true g 3) as [a'| |] eqn:E3; [discriminate F| |discriminate F]. destruct (perft false g 3) as [c| |] eqn:E4; [|discriminate F..].
  apply andb_true_iff in F as [F F3]. apply andb_true_iff in F as [F1 F2]. apply N.eqb_eq in F1, F2, F3. subst a b c.
  destruct (playout 100 0 (fun _ l => l) true h) as [h'| |] eqn:E5; [|discriminate F'..]. apply Nat.eqb_eq in F'.
  apply andb_true_iff in F'' as [F4 F5].
  exists g, h, h', h''. split; [reflexivity|]. split; [exact E1|]. split; [exact E2|]. split; [exact E3|]. split; [exact E4|]. split; [reflexivity|].
  split; [exact E5|]. split; [exact F'|]. split; [reflexivity|]. split; [apply panics_spec, F4|exact F5].
Qed.

Lemma builds_converse : exists g ops r, game_new (Custom 5 4) JAPANESE = Ok g /\ (forall o, o ∈ ops -> rguarded (5, 4)%nat o) /\
  calls false g ops = Ok r /\ calls true g ops = Panic.
Proof.
  destruct case_any_answers as (_ & _ & _ & HA & _ & _ & _ & g & Eg & G1 & G2 & HP).
  assert (HG : forall o, o ∈ [OTry (MPlay 1 0); OTry (MPlay 0 0)] -> rguarded (5, 4)%nat o).
  { intros o Ho. repeat (apply elem_of_cons in Ho as [->|Ho]; [assumption|]). apply elem_of_nil in Ho. destruct Ho. }
  destruct (HA (Custom 5 4) JAPANESE [OTry (MPlay 1 0); OTry (MPlay 0 0)] eq_refl HG) as (g0 & g' & l & E0 & Ec); [vm_compute; discriminate|].
  rewrite Eg in E0. injection E0 as <-. exists g, [OTry (MPlay 1 0); OTry (MPlay 0 0)], (g', l). auto.
Qed.
