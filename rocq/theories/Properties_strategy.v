(** Games end, have a value, and favour the first player: C126-C128 *)
From stdpp Require Import relations sorting strings.
From Verif Require Import Spec Reach Observe ScoreSpec RectSpec RectReach StrategySpec StrategyFacts StealFacts SymClaims StrategyCases.
Local Notation length := Datatypes.length.
Open Scope nat_scope.

(** C126: whatever the rule, no more than 361 times 65536 stones are ever put on the board of one game, unchecked moves, handicap and set-up included. *)
Theorem C126_stones_ever_put dbg n b w g : Nat.divide (snd n) (fst n) -> rgreach dbg n b w g -> (N.of_nat (b + w) <= STONES_EVER)%N.
Proof. exact (stones_bounded dbg n b w g). Qed.
Print Assumptions C126_stones_ever_put.

Example C126_stones_ever_put_case dbg : exists g g' b w, Nat.divide 3 6 /\ rgreach dbg (6, 3) b w g /\ rstone_run dbg (6, 3) 2 g g' /\ fst (gm_prisoners g') = 1%N.
Proof. exact (case_end dbg). Qed.

(** C126: whatever the rule, no sequence of passes, resignations, resumptions, refused moves and stones holds more stones than are left of that number. *)
Theorem C126_no_game_goes_on_for_ever dbg n b w k g g' : Nat.divide (snd n) (fst n) -> rgreach dbg n b w g -> rstone_run dbg n k g g' ->
  (N.of_nat (b + w + k) <= STONES_EVER)%N.
Proof. exact (games_end dbg n b w k g g'). Qed.
Print Assumptions C126_no_game_goes_on_for_ever.

Example C126_no_game_goes_on_for_ever_case dbg : exists g g' b w, Nat.divide 3 6 /\ rgreach dbg (6, 3) b w g /\ rstone_run dbg (6, 3) 2 g g' /\ fst (gm_prisoners g') = 1%N.
Proof. exact (case_end dbg). Qed.

(** C127: for any property of finished games that can be told, one player can bring it about or the other can prevent it. *)
Theorem C127_determined dbg n b w g c (P : game -> Prop) : Nat.divide (snd n) (fst n) -> rgreach dbg n b w g ->
    (forall h b' w', rgreach dbg n b' w' h -> is_over h = true -> P h \/ ~ P h) ->
    forces dbg n c P g \/ forces dbg n (opp c) (fun h => ~ P h) g.
Proof. exact (determined dbg n b w g c P). Qed.
Print Assumptions C127_determined.

Example C127_determined_case dbg : exists g b w, Nat.divide 5 5 /\ rgreach dbg (5, 5) b w g /\ is_over g = false /\ forces dbg (5, 5) Black (won dbg Black) g /\
  (forall h b' w', rgreach dbg (5, 5) b' w' h -> is_over h = true -> won dbg Black h \/ ~ won dbg Black h) /\ (forall h, won dbg Black h -> won dbg White h -> False).
Proof. exact (case_value dbg). Qed.

(** C127: two players cannot bring about ends that exclude each other. *)
Theorem C127_not_both dbg n c (P Q : game -> Prop) g : (forall h, P h -> Q h -> False) -> forces dbg n c P g -> ~ forces dbg n (opp c) Q g.
Proof. exact (not_both dbg n c P Q g). Qed.
Print Assumptions C127_not_both.

Example C127_not_both_case dbg : exists g b w, Nat.divide 5 5 /\ rgreach dbg (5, 5) b w g /\ is_over g = false /\ forces dbg (5, 5) Black (won dbg Black) g /\
  (forall h b' w', rgreach dbg (5, 5) b' w' h -> is_over h = true -> won dbg Black h \/ ~ won dbg Black h) /\ (forall h, won dbg Black h -> won dbg White h -> False).
Proof. exact (case_value dbg). Qed.

(** C127: either Black can force a win, or White can, or each can force at least a draw; a win for one excludes the rest. *)
Theorem C127_games_have_a_value dbg n b w g : Nat.divide (snd n) (fst n) -> rgreach dbg n b w g ->
  (forall c, forces dbg n c (won dbg c) g \/ forces dbg n (opp c) (not_lost dbg (opp c)) g) /\
  (forall c, ~ (forces dbg n c (won dbg c) g /\ forces dbg n (opp c) (not_lost dbg (opp c)) g)) /\
  (forces dbg n Black (won dbg Black) g \/ forces dbg n White (won dbg White) g \/
   forces dbg n Black (not_lost dbg Black) g /\ forces dbg n White (not_lost dbg White) g).
Proof. exact (game_value dbg n b w g). Qed.
Print Assumptions C127_games_have_a_value.

Example C127_games_have_a_value_case dbg : exists g b w, Nat.divide 5 5 /\ rgreach dbg (5, 5) b w g /\ is_over g = false /\ forces dbg (5, 5) Black (won dbg Black) g /\
  (forall h b' w', rgreach dbg (5, 5) b' w' h -> is_over h = true -> won dbg Black h \/ ~ won dbg Black h) /\ (forall h, won dbg Black h -> won dbg White h -> False).
Proof. exact (case_value dbg). Qed.

(** C128: from a new game under any rule that does not count komi, the first player can force a win or a draw. *)
Theorem C128_first_player_does_not_lose dbg n s r g : Nat.divide (snd n) (fst n) -> 1 <= fst n -> 1 <= snd n -> size_of s = n -> game_new s r = Ok g -> N.testbit (flag_score r) 1 = false ->
  forces dbg n Black (not_lost dbg Black) g.
Proof. exact (steal dbg n s r g). Qed.
Print Assumptions C128_first_player_does_not_lose.

Example C128_first_player_does_not_lose_case dbg : exists g, Nat.divide 3 6 /\ 1 <= 6 /\ 1 <= 3 /\ size_of (Custom 6 3) = (6, 3) /\ game_new (Custom 6 3) NO_KOMI = Ok g /\ N.testbit (flag_score NO_KOMI) 1 = false /\
  forces dbg (6, 3) Black (not_lost dbg Black) g.
Proof. exact (case_steal dbg). Qed.

(** C128: the first player cannot always force a win. *)
Theorem C128_first_player_wins_refuted dbg : exists g, game_new (Custom 1 1) NO_KOMI = Ok g /\ N.testbit (flag_score NO_KOMI) 1 = false /\
  forces dbg (1, 1) White (not_lost dbg White) g /\ ~ forces dbg (1, 1) Black (won dbg Black) g.
Proof. exact (only_a_draw dbg). Qed.
Print Assumptions C128_first_player_wins_refuted.

(** C128: with komi it is not so. *)
Theorem C128_with_komi_refuted dbg : exists g, game_new (Custom 1 1) JAPANESE = Ok g /\ forces dbg (1, 1) White (won dbg White) g /\ ~ forces dbg (1, 1) Black (not_lost dbg Black) g.
Proof. exact (komi_decides dbg). Qed.
Print Assumptions C128_with_komi_refuted.
