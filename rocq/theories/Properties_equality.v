(** The derived equalities: C108 *)
From stdpp Require Import relations sorting strings.
From Verif Require Import Spec Reach Observe ScoreSpec RoundSpec Equality EqualitySpec EqualityFacts.
Local Notation length := Datatypes.length.
Open Scope nat_scope.

(** C108: two results are equal exactly if they name the same way to end, the same winner and the same margin as a number. *)
Theorem C108_results e f : proper_result e -> proper_result f -> endgame_eq e f = true <-> same_result e f.
Proof. exact (endgame_eq_result e f). Qed.
Print Assumptions C108_results.

Example C108_results_case : exists x y z, is_f32 x /\ is_f32 y /\ is_f32 z /\ x <> y /\ same_number x y /\ ~ same_number x z /\
  is_f32 (r_komi JAPANESE) /\ is_f32 (r_komi CHINESE) /\ rule_eq JAPANESE JAPANESE = true /\ rule_eq JAPANESE CHINESE = false /\
  rule_eq (mkRule S754_nan 5 6) (mkRule S754_nan 5 6) = false /\
  endgame_eq (WinnerByScore Black x) (WinnerByScore Black y) = true /\ endgame_eq (WinnerByScore Black x) (WinnerByResign Black) = false.
Proof. exact case_numbers. Qed.

(** C108: two rules are equal exactly if their flags are and their komi is the same number. *)
Theorem C108_rules r s : is_f32 (r_komi r) -> is_f32 (r_komi s) ->
  rule_eq r s = true <-> same_number (r_komi r) (r_komi s) /\ flag_illegal r = flag_illegal s /\ flag_score r = flag_score s.
Proof. exact (rule_eq_same r s). Qed.
Print Assumptions C108_rules.

Example C108_rules_case : exists x y z, is_f32 x /\ is_f32 y /\ is_f32 z /\ x <> y /\ same_number x y /\ ~ same_number x z /\
  is_f32 (r_komi JAPANESE) /\ is_f32 (r_komi CHINESE) /\ rule_eq JAPANESE JAPANESE = true /\ rule_eq JAPANESE CHINESE = false /\
  rule_eq (mkRule S754_nan 5 6) (mkRule S754_nan 5 6) = false /\
  endgame_eq (WinnerByScore Black x) (WinnerByScore Black y) = true /\ endgame_eq (WinnerByScore Black x) (WinnerByResign Black) = false.
Proof. exact case_numbers. Qed.

(** C108: asked twice for the outcome of a game finished by two passes, whatever the order of the hash sets, the library gives equal answers exactly if the komi is not a NaN that counts. *)
Theorem C108_outcome_twice order order' dbg n b w g : greach dbg n b w g -> (forall l, order l ≡ₚ l) -> (forall l, order' l ≡ₚ l) ->
  is_f32 (komi g) -> (fst (gm_prisoners g) < 1000000)%N -> (snd (gm_prisoners g) < 1000000)%N -> gm_outcome g = None -> gm_passes g = 2 ->
  exists o o', outcome order dbg g = Ok (Some o) /\ outcome order' dbg g = Ok (Some o') /\
    (endgame_eq o o' = true <-> ~ (komi g = S754_nan /\ N.testbit (flag_score (gm_rule g)) 1 = true)).
Proof. exact (outcome_twice order order' dbg n b w g). Qed.
Print Assumptions C108_outcome_twice.

Example C108_outcome_twice_case dbg : exists b w g b' w' h,
  greach dbg 9 b w g /\ (forall l : list point, rev l ≡ₚ l) /\ is_f32 (komi g) /\ (fst (gm_prisoners g) < 1000000)%N /\ (snd (gm_prisoners g) < 1000000)%N /\
    gm_outcome g = None /\ gm_passes g = 2 /\ komi g <> S754_nan /\
  greach dbg 9 b' w' h /\ is_f32 (komi h) /\ (fst (gm_prisoners h) < 1000000)%N /\ (snd (gm_prisoners h) < 1000000)%N /\
    gm_outcome h = None /\ gm_passes h = 2 /\ komi h = S754_nan /\ N.testbit (flag_score (gm_rule h)) 1 = true.
Proof. exact (case_outcome_twice dbg). Qed.

(** C108: two sizes are equal exactly if they are the same, by name and numbers. *)
Theorem C108_sizes s t : sizes_eq s t = true <-> s = t.
Proof. exact (sizes_eq_name s t). Qed.
Print Assumptions C108_sizes.

Example C108_sizes_case : sizes_eq (Custom 12 8) (Custom 12 8) = true /\ sizes_eq (Custom 12 8) (Custom 8 12) = false /\ sizes_eq Thirteen Thirteen = true.
Proof. exact case_sizes. Qed.

(** C108: two moves are equal exactly if they are the same. *)
Theorem C108_moves m m' : move_eq m m' = true <-> m = m'.
Proof. exact (move_eq_same m m'). Qed.
Print Assumptions C108_moves.

Example C108_moves_case : move_eq (MPlay 3 4) (MPlay 3 4) = true /\ move_eq (MPlay 3 4) (MPlay 4 3) = false /\ move_eq (MResign Black) (MResign White) = false.
Proof. exact case_moves. Qed.

(** C108: but three different names of the size 19 x 19 give the very same games. *)
Theorem C108_sizes_refuted : exists s t u, sizes_eq s t = false /\ sizes_eq t u = false /\ sizes_eq s u = false /\
  size_of s = (19, 19) /\ size_of t = (19, 19) /\ size_of u = (19, 19) /\
  (forall r, game_new s r = game_new t r /\ game_new t r = game_new u r).
Proof. exact size_names. Qed.
Print Assumptions C108_sizes_refuted.
