(** Reflections and look-alikes on tall boards: C109 *)
From stdpp Require Import relations sorting strings.
From Verif Require Import Spec Reach Observe Ops Samples RectReach RectSymSpec RectScore RectSymClaims RectCountScore RectSwap SymSpec.
Local Notation length := Datatypes.length.
Open Scope nat_scope.

(** C109: on a board whose width divides its height, two games that correspond under one of its symmetries, with or without the colours swapped, answer corresponding moves alike and still correspond. *)
Theorem C109_corresponding_games n σ τ γ dbg dbg' ms : Nat.divide (snd n) (fst n) -> rboard_sym n σ τ γ -> forall b w b' w' g h,
  rgreach dbg n b w g -> rgreach dbg' n b' w' h ->
  rimage_game n σ γ g h -> rimage_history n σ γ g h -> image_caught γ g h ->
  (forall x y, MPlay x y ∈ ms -> ron n (x, y)) ->
  (N.of_nat (b + w + length ms) <= 65535)%N -> (N.of_nat (b' + w' + length ms) <= 65535)%N ->
  forbids_fill_eye (gm_rule g) = false \/ (forall q, ron n q -> σ q = q) ->
  exists g' h' tr,
    run dbg g (List.map OTry ms) = Ok (g', tr) /\
    run dbg' h (List.map OTry (List.map (image_move σ γ) ms)) = Ok (h', List.map (image_event γ) tr) /\
    rimage_game n σ γ g' h' /\ rimage_history n σ γ g' h' /\ image_caught γ g' h'.
Proof. exact (rimage_run n σ τ γ dbg dbg' ms). Qed.
Print Assumptions C109_corresponding_games.

Example C109_corresponding_games_case dbg dbg' : exists g h b w b' w',
  rgreach dbg (6, 3) b w g /\ rgreach dbg' (6, 3) b' w' h /\
  rboard_sym (6, 3) (rectangle_symmetry (6, 3) 2) (rectangle_symmetry (6, 3) 2) opp /\
  rimage_game (6, 3) (rectangle_symmetry (6, 3) 2) opp g h /\ rimage_history (6, 3) (rectangle_symmetry (6, 3) 2) opp g h /\ image_caught opp g h /\
  (forall x y, MPlay x y ∈ [MPlay 1 1; MPass; MPlay 4 0] -> ron (6, 3) (x, y)) /\
  (N.of_nat (b + w + 3) <= 65535)%N /\ (N.of_nat (b' + w' + 3) <= 65535)%N /\ forbids_fill_eye (gm_rule g) = false /\
  position g (5, 2) = Some Black /\ position h (0, 2) = Some White.
Proof. exact (case_rimage dbg dbg'). Qed.

(** C109: from two new games under the same prohibitions, the moves of one, reflected or turned half round, are answered in the other alike. *)
Theorem C109_reflected_game dbg dbg' n s r r' k ms g h : Nat.divide (snd n) (fst n) -> 1 <= fst n -> 1 <= snd n -> size_of s = n -> k < 4 ->
  game_new s r = Ok g -> game_new s r' = Ok h -> flag_illegal r' = flag_illegal r -> forbids_fill_eye r = false ->
  (forall x y, MPlay x y ∈ ms -> ron n (x, y)) -> (N.of_nat (length ms) <= 65535)%N ->
  exists g' h' tr,
    run dbg g (List.map OTry ms) = Ok (g', tr) /\
    run dbg' h (List.map OTry (List.map (image_move (rectangle_symmetry n k) (fun c => c)) ms)) = Ok (h', tr) /\
    (forall p, ron n p -> position h' (rectangle_symmetry n k p) = position g' p) /\
    gm_turn h' = gm_turn g' /\ gm_passes h' = gm_passes g' /\ gm_outcome h' = gm_outcome g' /\ gm_prisoners h' = gm_prisoners g'.
Proof. exact (rimage_whole dbg dbg' n s r r' k ms g h). Qed.
Print Assumptions C109_reflected_game.

Example C109_reflected_game_case dbg dbg' : exists g g' h' tr, game_new (Custom 6 3) CHINESE = Ok g /\ forbids_fill_eye CHINESE = false /\
  (forall x y, MPlay x y ∈ wrong_moves -> ron (6, 3) (x, y)) /\ (N.of_nat (length wrong_moves) <= 65535)%N /\
  run dbg g (List.map OTry wrong_moves) = Ok (g', tr) /\ run dbg' g (List.map OTry (turned_moves 3)) = Ok (h', tr) /\ length tr = length wrong_moves.
Proof. exact (case_rwhole dbg dbg'). Qed.

(** C109: games that look alike go on alike. *)
Theorem C109_look_alikes_go_on_alike n dbg dbg' ms b w b' w' g h : Nat.divide (snd n) (fst n) ->
  rgreach dbg n b w g -> rgreach dbg' n b' w' h -> rlook_alike n g h ->
  (forall x y, MPlay x y ∈ ms -> ron n (x, y)) ->
  (N.of_nat (b + w + length ms) <= 65535)%N -> (N.of_nat (b' + w' + length ms) <= 65535)%N ->
  exists g' h' tr, run dbg g (List.map OTry ms) = Ok (g', tr) /\ run dbg' h (List.map OTry ms) = Ok (h', tr) /\ rlook_alike n g' h'.
Proof. exact (ralike_run n dbg dbg' ms b w b' w' g h). Qed.
Print Assumptions C109_look_alikes_go_on_alike.

Example C109_look_alikes_go_on_alike_case dbg dbg' : exists g h b w b' w',
  rgreach dbg (6, 3) b w g /\ rgreach dbg' (6, 3) b' w' h /\ rlook_alike (6, 3) g h /\
  (forall x y, MPlay x y ∈ [MPlay 1 1; MPass; MPlay 4 0] -> ron (6, 3) (x, y)) /\
  (N.of_nat (b + w + 3) <= 65535)%N /\ (N.of_nat (b' + w' + 3) <= 65535)%N /\
  group_no (gm_goban g) (3, 0) = Some 0 /\ group_no (gm_goban h) (3, 0) = Some 3.
Proof. exact (case_ralike dbg dbg'). Qed.

(** C109: games that look alike have the same score and outcome, in either build profile and whatever the iteration order of the hash sets. *)
Theorem C109_look_alikes_score_alike n order order' dbg dbg' b w b' w' g h flags : Nat.divide (snd n) (fst n) ->
  rgreach dbg n b w g -> rgreach dbg' n b' w' h -> (forall l, order l ≡ₚ l) -> (forall l, order' l ≡ₚ l) -> rlook_alike n g h ->
  exists s o, calculate_score_by order dbg g flags = Ok s /\ calculate_score_by order' dbg' h flags = Ok s /\
    outcome order dbg g = Ok o /\ outcome order' dbg' h = Ok o.
Proof. exact (ralike_score_any n order order' dbg dbg' b w b' w' g h flags). Qed.
Print Assumptions C109_look_alikes_score_alike.

Example C109_look_alikes_score_alike_case dbg dbg' : exists g h b w b' w',
  rgreach dbg (6, 3) b w g /\ rgreach dbg' (6, 3) b' w' h /\ rlook_alike (6, 3) g h /\
  (forall x y, MPlay x y ∈ [MPlay 1 1; MPass; MPlay 4 0] -> ron (6, 3) (x, y)) /\
  (N.of_nat (b + w + 3) <= 65535)%N /\ (N.of_nat (b' + w' + 3) <= 65535)%N /\
  group_no (gm_goban g) (3, 0) = Some 0 /\ group_no (gm_goban h) (3, 0) = Some 3.
Proof. exact (case_ralike dbg dbg'). Qed.

(** C109: exchanging the colours exchanges the scores if komi is not counted. *)
Theorem C109_exchanged_colours_score n order order' dbg dbg' b w b' w' g h flags : Nat.divide (snd n) (fst n) ->
  rgreach dbg n b w g -> rgreach dbg' n b' w' h -> (forall l, order l ≡ₚ l) -> (forall l, order' l ≡ₚ l) ->
  rimage n (fun p => p) opp (position g) (position h) -> image_caught opp g h -> N.testbit flags 1 = false ->
  exists sb sw, calculate_score_by order dbg g flags = Ok (sb, sw) /\ calculate_score_by order' dbg' h flags = Ok (sw, sb).
Proof. exact (swap_scores n order order' dbg dbg' b w b' w' g h flags). Qed.
Print Assumptions C109_exchanged_colours_score.

Example C109_exchanged_colours_score_case dbg dbg' : exists g h b w b' w', Nat.divide 3 6 /\
  rgreach dbg (6, 3) b w g /\ rgreach dbg' (6, 3) b' w' h /\ rimage_game (6, 3) (fun p => p) opp g h /\ image_caught opp g h /\
  flag_score (gm_rule h) = flag_score (gm_rule g) /\ N.testbit (flag_score (gm_rule g)) 1 = false /\
  gm_prisoners g = (1%N, 0%N) /\ is_over g = true.
Proof. exact (case_rswap dbg dbg'). Qed.

(** C109: exchanging the colours exchanges the winner if komi is not counted. *)
Theorem C109_exchanged_colours_outcome n order order' dbg dbg' b w b' w' g h : Nat.divide (snd n) (fst n) ->
  rgreach dbg n b w g -> rgreach dbg' n b' w' h -> (forall l, order l ≡ₚ l) -> (forall l, order' l ≡ₚ l) ->
  rimage_game n (fun p => p) opp g h -> image_caught opp g h -> flag_score (gm_rule h) = flag_score (gm_rule g) -> N.testbit (flag_score (gm_rule g)) 1 = false ->
  exists o, outcome order dbg g = Ok o /\ outcome order' dbg' h = Ok (option_map (image_end opp) o).
Proof. exact (swap_outcome n order order' dbg dbg' b w b' w' g h). Qed.
Print Assumptions C109_exchanged_colours_outcome.

Example C109_exchanged_colours_outcome_case dbg dbg' : exists g h b w b' w', Nat.divide 3 6 /\
  rgreach dbg (6, 3) b w g /\ rgreach dbg' (6, 3) b' w' h /\ rimage_game (6, 3) (fun p => p) opp g h /\ image_caught opp g h /\
  flag_score (gm_rule h) = flag_score (gm_rule g) /\ N.testbit (flag_score (gm_rule g)) 1 = false /\
  gm_prisoners g = (1%N, 0%N) /\ is_over g = true.
Proof. exact (case_rswap dbg dbg'). Qed.

(** C109: but a game and its reflection can have different winners. *)
Theorem C109_reflected_winner_refuted dbg : exists g g' h' tr,
  game_new (Custom 6 3) CHINESE = Ok g /\
  run dbg g (List.map OTry wrong_moves) = Ok (g', tr) /\
  run dbg g (List.map OTry (List.map (image_move (rectangle_symmetry (6, 3) 2) (fun c => c)) wrong_moves)) = Ok (h', tr) /\
  length tr = length wrong_moves /\ is_over g' = true /\ is_over h' = true /\
  (forall p, ron (6, 3) p -> position h' (rectangle_symmetry (6, 3) 2 p) = position g' p) /\
  forall order, (forall l, order l ≡ₚ l) ->
    outcome order dbg g' = Ok (Some (WinnerByScore Black (f32_make 13 (-1)))) /\
    outcome order dbg h' = Ok (Some (WinnerByScore White (f32_make 19 (-1)))).
Proof. exact (turned_winner dbg). Qed.
Print Assumptions C109_reflected_winner_refuted.
