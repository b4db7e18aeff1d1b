(** Properties of territory, score and outcome: C25-C28, C53 *)
From stdpp Require Import relations sorting strings.
From Verif Require Import Spec Reach Observe ScoreSpec RoundSpec DeadStones Samples ScoreFacts RoundScore RefuteFacts ClaimFacts FloatingFacts PlayClaims RoundClaims CaseFacts GlueFacts OutcomeNone.
Local Notation length := Datatypes.length.
Open Scope nat_scope.

(** C25: [get_group_from_point] returns the connected region of a point. *)
Theorem C25_region dbg n m g p : breach dbg n m g -> on n p ->
  exists R, get_group_from_point dbg g (p, pos_of g p) = Ok R /\ NoDup R /\
    forall q c, (q, c) ∈ R <-> c = pos_of g p /\ connected n (pos_of g) p q.
Proof. exact (claim_region dbg n m g p). Qed.
Print Assumptions C25_region.

Example C25_region_case dbg : exists m g,
  breach dbg 9 m g /\ on 9 (1, 2) /\ pos_of g (1, 2) = Some Black /\ pos_of g (1, 1) = None /\ pos_of g (2, 2) = Some White /\
  ~ connected 9 (pos_of g) (1, 2) (2, 2).
Proof. exact (case_board dbg). Qed.

(** C25: [get_chains_from_stones] returns the regions of the given points, each once. *)
Theorem C25_regions dbg n m g l : breach dbg n m g -> (forall p, p ∈ l -> on n p) ->
  exists L, get_chains_from_stones dbg g (List.map (fun p => (p, pos_of g p)) l) = Ok L /\ NoDup (List.concat L) /\
    Forall (fun R => exists p, p ∈ l /\ forall q c, (q, c) ∈ R <-> c = pos_of g p /\ connected n (pos_of g) p q) L /\
    forall p, p ∈ l -> (p, pos_of g p) ∈ List.concat L.
Proof. exact (claim_regions dbg n m g l). Qed.
Print Assumptions C25_regions.

Example C25_regions_case dbg : exists m g, breach dbg 9 m g /\ (forall p, p ∈ [(1, 2); (1, 1); (2, 2); (0, 0)] -> on 9 p) /\
  pos_of g (1, 2) = Some Black /\ pos_of g (1, 1) = None /\ pos_of g (2, 2) = Some White /\ ~ connected 9 (pos_of g) (1, 2) (2, 2).
Proof. exact (case_regions dbg). Qed.

(** C26: territories are the empty regions that touch one colour only, for every iteration order of the hash sets. *)
Theorem C26_territories order dbg n m g : breach dbg n m g -> (forall l, order l ≡ₚ l) ->
  (exists bt wt, get_territories order dbg g = Ok (bt, wt) /\ NoDup bt /\ NoDup wt /\
    (forall p c, (p, c) ∈ bt <-> c = None /\ owned n (pos_of g) Black p) /\
    (forall p c, (p, c) ∈ wt <-> c = None /\ owned n (pos_of g) White p)) /\
  exists tb tw, calculate_territories order dbg g = Ok (tb, tw) /\
    card (owned n (pos_of g) Black) tb /\ card (owned n (pos_of g) White) tw.
Proof. exact (claim_territories order dbg n m g). Qed.
Print Assumptions C26_territories.

Example C26_territories_case dbg : exists m g,
  breach dbg 9 m g /\ on 9 (1, 2) /\ pos_of g (1, 2) = Some Black /\ pos_of g (1, 1) = None /\ pos_of g (2, 2) = Some White /\
  ~ connected 9 (pos_of g) (1, 2) (2, 2).
Proof. exact (case_board dbg). Qed.

(** C27: scores are exact sums. *)
Theorem C27_score_exact order dbg n b0 w0 g k2 flags :
  greach dbg n b0 w0 g -> (forall l, order l ≡ₚ l) ->
  is_f32 (komi g) -> halves (komi g) k2 -> (Z.abs k2 <= 200000)%Z ->
  (fst (gm_prisoners g) < 1000000)%N -> (snd (gm_prisoners g) < 1000000)%N ->
  exists b w tb tw,
    calculate_score_by order dbg g flags = Ok (b, w) /\
    card (owned n (pos_of (gm_goban g)) Black) tb /\ card (owned n (pos_of (gm_goban g)) White) tw /\
    is_f32 b /\ is_f32 w /\
    halves b (black2 flags (N.of_nat tb) (N.of_nat (count n (pos_of (gm_goban g)) Black)) (fst (gm_prisoners g))) /\
    halves w (white2 flags (N.of_nat tw) (N.of_nat (count n (pos_of (gm_goban g)) White)) (snd (gm_prisoners g)) k2).
Proof. exact (score_exact order dbg n b0 w0 g k2 flags). Qed.
Print Assumptions C27_score_exact.

Example C27_score_exact_case dbg : exists g b w,
  greach dbg 3 b w g /\ gm_passes g = 2 /\ gm_outcome g = None /\ is_f32 (komi g) /\ halves (komi g) 13 /\ (Z.abs 13 <= 200000)%Z /\
  (fst (gm_prisoners g) < 1000000)%N /\ (snd (gm_prisoners g) < 1000000)%N /\
  outcome (fun l => l) dbg g = Ok (Some (WinnerByScore Black (f32_make 3 (-1)))).
Proof. exact (case_paused dbg). Qed.

(** C28: after two passes the outcome follows from the exact scores. *)
Theorem C28_outcome_exact order dbg n b0 w0 g k2 :
  greach dbg n b0 w0 g -> (forall l, order l ≡ₚ l) ->
  is_f32 (komi g) -> halves (komi g) k2 -> (Z.abs k2 <= 200000)%Z ->
  (fst (gm_prisoners g) < 1000000)%N -> (snd (gm_prisoners g) < 1000000)%N ->
  gm_outcome g = None -> gm_passes g = 2%nat ->
  exists tb tw,
    card (owned n (pos_of (gm_goban g)) Black) tb /\ card (owned n (pos_of (gm_goban g)) White) tw /\
    let B := black2 (flag_score (gm_rule g)) (N.of_nat tb) (N.of_nat (count n (pos_of (gm_goban g)) Black)) (fst (gm_prisoners g)) in
    let Wh := white2 (flag_score (gm_rule g)) (N.of_nat tw) (N.of_nat (count n (pos_of (gm_goban g)) White)) (snd (gm_prisoners g)) k2 in
    (outcome order dbg g = Ok (Some Draw) /\ B = Wh) \/
    (exists m, outcome order dbg g = Ok (Some (WinnerByScore Black m)) /\ (B > Wh)%Z /\ is_f32 m /\ halves m (B - Wh)) \/
    (exists m, outcome order dbg g = Ok (Some (WinnerByScore White m)) /\ (Wh > B)%Z /\ is_f32 m /\ halves m (Wh - B)).
Proof. exact (outcome_exact order dbg n b0 w0 g k2). Qed.
Print Assumptions C28_outcome_exact.

Example C28_outcome_exact_case dbg : exists g b w,
  greach dbg 3 b w g /\ gm_passes g = 2 /\ gm_outcome g = None /\ is_f32 (komi g) /\ halves (komi g) 13 /\ (Z.abs 13 <= 200000)%Z /\
  (fst (gm_prisoners g) < 1000000)%N /\ (snd (gm_prisoners g) < 1000000)%N /\
  outcome (fun l => l) dbg g = Ok (Some (WinnerByScore Black (f32_make 3 (-1)))).
Proof. exact (case_paused dbg). Qed.

(** C27: with any komi Black's score is exact and White's score is the exact sum, rounded once; a komi that is not finite is itself White's score. *)
Theorem C27_score_rounded order dbg n b0 w0 g flags :
  greach dbg n b0 w0 g -> (forall l, order l ≡ₚ l) -> is_f32 (komi g) ->
  (fst (gm_prisoners g) < 1000000)%N -> (snd (gm_prisoners g) < 1000000)%N ->
  exists b w tb tw,
    calculate_score_by order dbg g flags = Ok (b, w) /\
    card (owned n (pos_of (gm_goban g)) Black) tb /\ card (owned n (pos_of (gm_goban g)) White) tw /\
    let B := side_points flags (N.of_nat tb) (N.of_nat (count n (pos_of (gm_goban g)) Black)) (fst (gm_prisoners g)) in
    let Wh := side_points flags (N.of_nat tw) (N.of_nat (count n (pos_of (gm_goban g)) White)) (snd (gm_prisoners g)) in
    is_f32 b /\ units b = Some (points_in_units B) /\
    if N.testbit flags 1
    then match units (komi g) with
         | Some k => rounds_to w (points_in_units Wh + k)
         | None => w = komi g
         end
    else is_f32 w /\ units w = Some (points_in_units Wh).
Proof. exact (score_rounded order dbg n b0 w0 g flags). Qed.
Print Assumptions C27_score_rounded.

Example C27_score_rounded_case dbg : exists g b w,
  greach dbg 3 b w g /\ gm_passes g = 2 /\ gm_outcome g = None /\ is_f32 (komi g) /\
  N.testbit (flag_score (gm_rule g)) 1 = true /\
  (if N.testbit (flag_score (gm_rule g)) 1 then units (komi g) else Some 0%Z) = Some (13212058 * 2 ^ 128)%Z /\
  (fst (gm_prisoners g) < 1000000)%N /\ (snd (gm_prisoners g) < 1000000)%N /\
  outcome (fun l => l) dbg g = Ok (Some (WinnerByScore Black (f32_make 3565158 (-21)))).
Proof. exact (case_odd_komi dbg). Qed.

(** C28: with any finite komi the winner has the strictly larger exact score, a draw means that the exact scores differ by less than a sixteenth of a point, and the margin is rounded correctly. *)
Theorem C28_outcome_any_komi order dbg n b0 w0 g k :
  greach dbg n b0 w0 g -> (forall l, order l ≡ₚ l) ->
  is_f32 (komi g) -> (if N.testbit (flag_score (gm_rule g)) 1 then units (komi g) else Some 0%Z) = Some k ->
  (fst (gm_prisoners g) < 1000000)%N -> (snd (gm_prisoners g) < 1000000)%N ->
  gm_outcome g = None -> gm_passes g = 2%nat ->
  exists tb tw w u,
    card (owned n (pos_of (gm_goban g)) Black) tb /\ card (owned n (pos_of (gm_goban g)) White) tw /\
    let B := points_in_units (side_points (flag_score (gm_rule g)) (N.of_nat tb) (N.of_nat (count n (pos_of (gm_goban g)) Black)) (fst (gm_prisoners g))) in
    let Wh := (points_in_units (side_points (flag_score (gm_rule g)) (N.of_nat tw) (N.of_nat (count n (pos_of (gm_goban g)) White)) (snd (gm_prisoners g))) + k)%Z in
    rounds_to w Wh /\ units w = Some u /\
    ((outcome order dbg g = Ok (Some Draw) /\ (Z.abs (B - Wh) < 2 ^ 145)%Z) \/
     (exists m, outcome order dbg g = Ok (Some (WinnerByScore Black m)) /\ (B > Wh)%Z /\ rounds_to m (B - u)) \/
     (exists m, outcome order dbg g = Ok (Some (WinnerByScore White m)) /\ (Wh > B)%Z /\ rounds_to m (u - B))).
Proof. exact (outcome_any_komi order dbg n b0 w0 g k). Qed.
Print Assumptions C28_outcome_any_komi.

Example C28_outcome_any_komi_case dbg : exists g b w,
  greach dbg 3 b w g /\ gm_passes g = 2 /\ gm_outcome g = None /\ is_f32 (komi g) /\
  N.testbit (flag_score (gm_rule g)) 1 = true /\
  (if N.testbit (flag_score (gm_rule g)) 1 then units (komi g) else Some 0%Z) = Some (13212058 * 2 ^ 128)%Z /\
  (fst (gm_prisoners g) < 1000000)%N /\ (snd (gm_prisoners g) < 1000000)%N /\
  outcome (fun l => l) dbg g = Ok (Some (WinnerByScore Black (f32_make 3565158 (-21)))).
Proof. exact (case_odd_komi dbg). Qed.

(** C28: there is no outcome exactly when the game is not over, that is, while no outcome is recorded and fewer than two passes were made in a row. *)
Theorem C28_no_outcome_iff_not_over order dbg g : (outcome order dbg g = Ok None <-> is_over g = false) /\
  (outcome order dbg g = Ok None <-> gm_outcome g = None /\ gm_passes g < 2).
Proof. exact (no_outcome_exact order dbg g). Qed.
Print Assumptions C28_no_outcome_iff_not_over.

Example C28_no_outcome_iff_not_over_case dbg : exists g b w,
  greach dbg 3 b w g /\ gm_passes g = 2 /\ gm_outcome g = None /\ is_f32 (komi g) /\ halves (komi g) 13 /\ (Z.abs 13 <= 200000)%Z /\
  (fst (gm_prisoners g) < 1000000)%N /\ (snd (gm_prisoners g) < 1000000)%N /\
  outcome (fun l => l) dbg g = Ok (Some (WinnerByScore Black (f32_make 3 (-1)))).
Proof. exact (case_paused dbg). Qed.

(** C53: a group without any eye is not reported as floating. *)
Theorem C53_floating_stones_refuted dbg : exists g b w,
  greach dbg 3 b w g /\ group_no (gm_goban g) (1, 1) = Some 0 /\
  (forall p c, on 3 p -> ~ eye_shape 3 (position g) c p) /\ get_floating_stones dbg g = Ok [].
Proof. exact (floating_missed dbg). Qed.
Print Assumptions C53_floating_stones_refuted.

(** C53: reported are the numbers, below the count of live groups, of the groups that touch at least three eye points. *)
Theorem C53_floating_stones_exact dbg n b w g : greach dbg n b w g ->
  exists l, get_floating_stones dbg g = Ok l /\ StronglySorted lt l /\
    forall i, i ∈ l <-> (i < length (all_chains (gm_goban g)))%nat /\
      exists k, (3 <= k)%nat /\ card (fun p => on n p /\ some_eye n g p /\ near_group n (gm_goban g) i p) k.
Proof. exact (floating_exact dbg n b w g). Qed.
Print Assumptions C53_floating_stones_exact.

Example C53_floating_stones_exact_case dbg : exists g b w, greach dbg 7 b w g /\ get_floating_stones dbg g = Ok [0] /\ length (all_chains (gm_goban g)) = 1.
Proof. exact (case_floating dbg). Qed.
