(** Komi and good play: C129-C132 *)
From stdpp Require Import relations sorting strings.
From Verif Require Import Spec Reach Observe ScoreSpec RoundSpec RectSpec RectReach Float32 StrategySpec SymClaims KomiClaims KomiCases.
Local Notation length := Datatypes.length.
Open Scope nat_scope.

(** C129: what White can force with some komi White can force with more, what Black can force with some komi Black can force with less; rounding included. *)
Theorem C129_more_komi dbg n b w g k k' u u' : Nat.divide (snd n) (fst n) -> rgreach dbg n b w g ->
  is_f32 k -> is_f32 k' -> units k = Some u -> units k' = Some u' -> (u <= u')%Z ->
  (forces dbg n White (won dbg White) (set_komi g k) -> forces dbg n White (won dbg White) (set_komi g k')) /\
  (forces dbg n White (not_lost dbg White) (set_komi g k) -> forces dbg n White (not_lost dbg White) (set_komi g k')) /\
  (forces dbg n Black (won dbg Black) (set_komi g k') -> forces dbg n Black (won dbg Black) (set_komi g k)) /\
  (forces dbg n Black (not_lost dbg Black) (set_komi g k') -> forces dbg n Black (not_lost dbg Black) (set_komi g k)).
Proof. exact (more_komi dbg n b w g k k' u u'). Qed.
Print Assumptions C129_more_komi.

Example C129_more_komi_case dbg : exists g b w u, Nat.divide 3 6 /\ rgreach dbg (6, 3) b w g /\ length (gm_history g) = 2 /\
  gm_outcome g = None /\ N.testbit (flag_score (gm_rule g)) 1 = true /\ N.testbit (flag_score (gm_rule g)) 2 = false /\
  is_f32 half_point /\ is_f32 (r_komi CHINESE) /\ units half_point = Some (2 ^ 148)%Z /\ units (r_komi CHINESE) = Some u /\ (2 ^ 148 <= u)%Z /\
  forces dbg (6, 3) White (won dbg White) (set_komi g half_point).
Proof. exact (case_komi dbg). Qed.

(** C130: for every game whose rule counts komi there are two numbers: Black can force a win exactly with a komi below the first, White exactly with a komi above the second, and each can avoid losing on the remaining side. *)
Theorem C130_fair_komi dbg n b w g : Nat.divide (snd n) (fst n) -> rgreach dbg n b w g -> gm_outcome g = None -> N.testbit (flag_score (gm_rule g)) 1 = true ->
  exists lo hi ulo uhi, is_f32 lo /\ is_f32 hi /\ units lo = Some ulo /\ units hi = Some uhi /\
    forall k u, is_f32 k -> units k = Some u ->
      (forces dbg n Black (won dbg Black) (set_komi g k) <-> (u < ulo)%Z) /\
      (forces dbg n White (not_lost dbg White) (set_komi g k) <-> (ulo <= u)%Z) /\
      (forces dbg n Black (not_lost dbg Black) (set_komi g k) <-> (u <= uhi)%Z) /\
      (forces dbg n White (won dbg White) (set_komi g k) <-> (uhi < u)%Z).
Proof. exact (fair_komi dbg n b w g). Qed.
Print Assumptions C130_fair_komi.

Example C130_fair_komi_case dbg : exists g b w u, Nat.divide 3 6 /\ rgreach dbg (6, 3) b w g /\ length (gm_history g) = 2 /\
  gm_outcome g = None /\ N.testbit (flag_score (gm_rule g)) 1 = true /\ N.testbit (flag_score (gm_rule g)) 2 = false /\
  is_f32 half_point /\ is_f32 (r_komi CHINESE) /\ units half_point = Some (2 ^ 148)%Z /\ units (r_komi CHINESE) = Some u /\ (2 ^ 148 <= u)%Z /\
  forces dbg (6, 3) White (won dbg White) (set_komi g half_point).
Proof. exact (case_komi dbg). Qed.

(** C130: where captured stones do not count, with some whole number of points as komi neither side can force a win. *)
Theorem C130_whole_komi dbg n b w g : Nat.divide (snd n) (fst n) -> rgreach dbg n b w g -> gm_outcome g = None ->
  N.testbit (flag_score (gm_rule g)) 1 = true -> N.testbit (flag_score (gm_rule g)) 2 = false ->
  exists z k, (Z.abs z < 1000000)%Z /\ is_f32 k /\ units k = Some (points_in_units z) /\
    forces dbg n Black (not_lost dbg Black) (set_komi g k) /\ forces dbg n White (not_lost dbg White) (set_komi g k).
Proof. exact (whole_komi_tall dbg n b w g). Qed.
Print Assumptions C130_whole_komi.

Example C130_whole_komi_case dbg : exists g b w u, Nat.divide 3 6 /\ rgreach dbg (6, 3) b w g /\ length (gm_history g) = 2 /\
  gm_outcome g = None /\ N.testbit (flag_score (gm_rule g)) 1 = true /\ N.testbit (flag_score (gm_rule g)) 2 = false /\
  is_f32 half_point /\ is_f32 (r_komi CHINESE) /\ units half_point = Some (2 ^ 148)%Z /\ units (r_komi CHINESE) = Some u /\ (2 ^ 148 <= u)%Z /\
  forces dbg (6, 3) White (won dbg White) (set_komi g half_point).
Proof. exact (case_komi dbg). Qed.

(** C130: on a square board that number is not above the number of points of the board. *)
Theorem C130_whole_komi_square dbg n b w g : greach dbg n b w g -> gm_outcome g = None ->
  N.testbit (flag_score (gm_rule g)) 1 = true -> N.testbit (flag_score (gm_rule g)) 2 = false ->
  exists z k, (Z.abs z <= Z.of_nat (n * n))%Z /\ is_f32 k /\ units k = Some (points_in_units z) /\
    forces dbg (n, n) Black (not_lost dbg Black) (set_komi g k) /\ forces dbg (n, n) White (not_lost dbg White) (set_komi g k).
Proof. exact (whole_komi_square dbg n b w g). Qed.
Print Assumptions C130_whole_komi_square.

Example C130_whole_komi_square_case dbg : exists g b w, greach dbg 5 b w g /\ length (gm_history g) = 5 /\ gm_outcome g = None /\
  N.testbit (flag_score (gm_rule g)) 1 = true /\ N.testbit (flag_score (gm_rule g)) 2 = false.
Proof. exact (case_komi_square dbg). Qed.

(** C130: more than one komi can be fair, because scores less than f32::EPSILON apart are level. *)
Theorem C130_only_one_fair_komi_refuted dbg : exists g b w k k' u u', rgreach dbg (1, 1) b w g /\ gm_outcome g = None /\ N.testbit (flag_score (gm_rule g)) 1 = true /\
  is_f32 k /\ is_f32 k' /\ units k = Some u /\ units k' = Some u' /\ (u < u')%Z /\
  (forces dbg (1, 1) Black (not_lost dbg Black) (set_komi g k) /\ forces dbg (1, 1) White (not_lost dbg White) (set_komi g k)) /\
  (forces dbg (1, 1) Black (not_lost dbg Black) (set_komi g k') /\ forces dbg (1, 1) White (not_lost dbg White) (set_komi g k')).
Proof. exact (two_fair_komi dbg). Qed.
Print Assumptions C130_only_one_fair_komi_refuted.

(** C131: from a new game under any rule whose komi is not above zero the first player can force a win or a draw. *)
Theorem C131_reverse_komi dbg n s r g u : Nat.divide (snd n) (fst n) -> 1 <= fst n -> 1 <= snd n -> size_of s = n -> game_new s r = Ok g ->
  is_f32 (r_komi r) -> units (r_komi r) = Some u -> (u <= 0)%Z -> forces dbg n Black (not_lost dbg Black) g.
Proof. exact (steal_komi dbg n s r g u). Qed.
Print Assumptions C131_reverse_komi.

Example C131_reverse_komi_case dbg : exists g u, Nat.divide 3 6 /\ 1 <= 6 /\ 1 <= 3 /\ size_of (Custom 6 3) = (6, 3) /\ game_new (Custom 6 3) REVERSE_KOMI = Ok g /\
  N.testbit (flag_score REVERSE_KOMI) 1 = true /\ is_f32 (r_komi REVERSE_KOMI) /\ units (r_komi REVERSE_KOMI) = Some u /\ (u < 0)%Z /\ forces dbg (6, 3) Black (not_lost dbg Black) g.
Proof. exact (case_reverse dbg). Qed.

(** C131: where captured stones do not count, a new game on a square board has a whole fair komi between 0 and the number of points of the board. *)
Theorem C131_fair_komi_of_a_new_game dbg n s r g : 1 <= n -> size_of s = (n, n) -> game_new s r = Ok g ->
  N.testbit (flag_score r) 1 = true -> N.testbit (flag_score r) 2 = false ->
  exists z k, (0 <= z <= Z.of_nat (n * n))%Z /\ is_f32 k /\ units k = Some (points_in_units z) /\
    forces dbg (n, n) Black (not_lost dbg Black) (set_komi g k) /\ forces dbg (n, n) White (not_lost dbg White) (set_komi g k).
Proof. exact (whole_komi_new dbg n s r g). Qed.
Print Assumptions C131_fair_komi_of_a_new_game.

Example C131_fair_komi_of_a_new_game_case : exists s g, 1 <= 19 /\ size_of s = (19, 19) /\ game_new s CHINESE = Ok g /\
  N.testbit (flag_score CHINESE) 1 = true /\ N.testbit (flag_score CHINESE) 2 = false.
Proof. exact case_komi_new. Qed.

(** C132: with a komi that is not a number or infinite White wins every counted game by that much, and Black with minus infinity. *)
Theorem C132_komi_not_a_number order dbg n b w g : Nat.divide (snd n) (fst n) -> rgreach dbg n b w g -> (forall l, order l ≡ₚ l) ->
  is_over g = true -> gm_outcome g = None -> N.testbit (flag_score (gm_rule g)) 1 = true ->
  outcome order dbg (set_komi g SpecFloat.S754_nan) = Ok (Some (WinnerByScore White SpecFloat.S754_nan)) /\
  outcome order dbg (set_komi g (SpecFloat.S754_infinity false)) = Ok (Some (WinnerByScore White (SpecFloat.S754_infinity false))) /\
  outcome order dbg (set_komi g (SpecFloat.S754_infinity true)) = Ok (Some (WinnerByScore Black (SpecFloat.S754_infinity false))).
Proof. exact (odd_komi order dbg n b w g). Qed.
Print Assumptions C132_komi_not_a_number.

Example C132_komi_not_a_number_case dbg : exists g b w m, Nat.divide 3 6 /\ rgreach dbg (6, 3) b w g /\ (forall l : list point, (fun l => l) l ≡ₚ l) /\ is_over g = true /\ gm_outcome g = None /\
  N.testbit (flag_score (gm_rule g)) 1 = true /\ outcome (fun l => l) dbg g = Ok (Some (WinnerByScore Black m)).
Proof. exact (case_odd dbg). Qed.
