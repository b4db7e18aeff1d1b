(** Games that are worth the same: C133-C134 *)
From stdpp Require Import relations sorting strings.
From Verif Require Import Spec Reach Observe ScoreSpec RoundSpec AreaSpec Samples RectSpec RectReach RectSymSpec RefuteFacts SymClaims RectScore ValueSpec ValueFacts ValueCases.
Local Notation length := Datatypes.length.
Open Scope nat_scope.

(** C133: on a square board an opening and its reflection or rotation are both accepted and worth the same to both players, in either build. *)
Theorem C133_mirrored_openings dbg dbg' n s r g k ms g' : 1 <= n -> size_of s = (n, n) -> game_new s r = Ok g -> k < 8 -> forbids_fill_eye r = false ->
  Forall (rplain (n, n)) ms -> all_accepted dbg g ms g' ->
  exists h', all_accepted dbg' g (List.map (image_move (square_symmetry n k) (fun c => c)) ms) h' /\ same_value dbg dbg' (n, n) (fun c => c) g' h'.
Proof. exact (mirrored_openings dbg dbg' n s r g k ms g'). Qed.
Print Assumptions C133_mirrored_openings.

Example C133_mirrored_openings_case dbg : exists g g', size_of (Custom 9 9) = (9, 9) /\ game_new (Custom 9 9) JAPANESE = Ok g /\ forbids_fill_eye JAPANESE = false /\
  Forall (rplain (9, 9)) ko_moves /\ all_accepted dbg g ko_moves g' /\ gm_ko_point g' = Some (1, 1) /\ square_symmetry 9 5 (1, 1) = (1, 7).
Proof. exact (case_openings dbg). Qed.

(** C133: so are any two reachable games on a square board that correspond under a symmetry of the board and, without komi, of the colours. *)
Theorem C133_corresponding_games dbg dbg' n σ τ γ b w b' w' g h : board_sym n σ τ γ -> greach dbg n b w g -> greach dbg' n b' w' h ->
  image_game n σ γ g h -> image_history n σ γ g h -> image_caught γ g h -> gm_rule h = gm_rule g ->
  length (chains (gm_goban h)) = length (chains (gm_goban g)) ->
  forbids_fill_eye (gm_rule g) = false \/ (forall q, on n q -> σ q = q) ->
  N.testbit (flag_score (gm_rule g)) 1 = false \/ γ Black = Black ->
  same_value dbg dbg' (n, n) γ g h.
Proof. exact (square_value dbg dbg' n σ τ γ b w b' w' g h). Qed.
Print Assumptions C133_corresponding_games.

Example C133_corresponding_games_case dbg dbg' : exists g h b w b' w', board_sym 9 (square_symmetry 9 5) (square_symmetry 9 6) (fun c => c) /\ greach dbg 9 b w g /\ greach dbg' 9 b' w' h /\
  image_game 9 (square_symmetry 9 5) (fun c => c) g h /\ image_history 9 (square_symmetry 9 5) (fun c => c) g h /\ image_caught (fun c => c) g h /\ gm_rule h = gm_rule g /\
  length (chains (gm_goban h)) = length (chains (gm_goban g)) /\ forbids_fill_eye (gm_rule g) = false /\
  gm_rule g = JAPANESE /\ gm_ko_point g = Some (1, 1) /\ gm_ko_point h = Some (1, 7).
Proof. exact (case_value dbg dbg'). Qed.

(** C133: not so on a board that is not square, because the score of a reflected position differs there. *)
Theorem C133_tall_boards_refuted dbg : exists g g' h', game_new (Custom 6 3) CHINESE = Ok g /\ forbids_fill_eye CHINESE = false /\ Forall (rplain (6, 3)) wrong_moves /\
  all_accepted dbg g wrong_moves g' /\ all_accepted dbg g (List.map (image_move (rectangle_symmetry (6, 3) 2) (fun c => c)) wrong_moves) h' /\
  forces dbg (6, 3) Black (won dbg Black) g' /\ forces dbg (6, 3) White (won dbg White) h' /\ ~ same_value dbg dbg (6, 3) (fun c => c) g' h'.
Proof. exact (reflected_opening dbg). Qed.
Print Assumptions C133_tall_boards_refuted.

(** C134: a line accepted in one build is accepted in the other and leads to a game that looks the same and is worth the same. *)
Theorem C134_builds_play_alike n s r g ms g' dbg dbg' : Nat.divide (snd n) (fst n) -> 1 <= fst n -> 1 <= snd n -> size_of s = n -> game_new s r = Ok g ->
  Forall (rplain n) ms -> all_accepted dbg g ms g' ->
  exists h', all_accepted dbg' g ms h' /\ rlook_alike n g' h' /\ same_value dbg dbg' n (fun c => c) g' h'.
Proof. exact (builds_value n s r g ms g' dbg dbg'). Qed.
Print Assumptions C134_builds_play_alike.

Example C134_builds_play_alike_case dbg : exists g g', Nat.divide 4 8 /\ size_of (Custom 8 4) = (8, 4) /\ game_new (Custom 8 4) JAPANESE = Ok g /\
  Forall (rplain (8, 4)) ko_moves /\ all_accepted dbg g ko_moves g' /\ gm_ko_point g' = Some (1, 1).
Proof. exact (case_builds dbg). Qed.

(** C134: two games that look alike are worth the same, however their groups are numbered. *)
Theorem C134_look_alikes dbg dbg' n b w b' w' g h : Nat.divide (snd n) (fst n) -> rgreach dbg n b w g -> rgreach dbg' n b' w' h -> rlook_alike n g h ->
  length (chains (gm_goban h)) = length (chains (gm_goban g)) -> same_value dbg dbg' n (fun c => c) g h.
Proof. exact (alike_value dbg dbg' n b w b' w' g h). Qed.
Print Assumptions C134_look_alikes.

Example C134_look_alikes_case dbg dbg' : exists g h b w b' w', Nat.divide 3 6 /\ rgreach dbg (6, 3) b w g /\ rgreach dbg' (6, 3) b' w' h /\ rlook_alike (6, 3) g h /\
  length (chains (gm_goban h)) = length (chains (gm_goban g)) /\ group_no (gm_goban g) (3, 0) <> group_no (gm_goban h) (3, 0).
Proof. exact (case_alike dbg dbg'). Qed.

(** C134: without komi a game with the colours exchanged is worth to each player what the game is worth to the other, on boards that are not square too. *)
Theorem C134_exchanged_colours dbg dbg' n b w b' w' g h : Nat.divide (snd n) (fst n) -> rgreach dbg n b w g -> rgreach dbg' n b' w' h ->
  rimage_game n (fun p => p) opp g h -> rimage_history n (fun p => p) opp g h -> image_caught opp g h -> gm_rule h = gm_rule g ->
  length (chains (gm_goban h)) = length (chains (gm_goban g)) ->
  N.testbit (flag_score (gm_rule g)) 1 = false -> same_value dbg dbg' n opp g h.
Proof. exact (exchanged_value dbg dbg' n b w b' w' g h). Qed.
Print Assumptions C134_exchanged_colours.

Example C134_exchanged_colours_case dbg dbg' : exists g h b w b' w', Nat.divide 4 8 /\ rgreach dbg (8, 4) b w g /\ rgreach dbg' (8, 4) b' w' h /\
  rimage_game (8, 4) (fun p => p) opp g h /\ rimage_history (8, 4) (fun p => p) opp g h /\ image_caught opp g h /\ gm_rule h = gm_rule g /\
  length (chains (gm_goban h)) = length (chains (gm_goban g)) /\ N.testbit (flag_score (gm_rule g)) 1 = false /\
  position g (1, 2) = Some Black /\ position h (1, 2) = Some White /\ gm_ko_point h = Some (1, 1).
Proof. exact (case_exchanged dbg dbg'). Qed.
