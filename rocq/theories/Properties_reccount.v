(** What counts as territory on tall boards: C110 *)
From stdpp Require Import relations sorting strings.
From Verif Require Import Spec Reach Observe Samples ScoreSpec RectReach RectScore RectCountSpec RectCount RectTimes RectCountScore.
Local Notation length := Datatypes.length.
Open Scope nat_scope.

(** C110: if the width divides the height, the regions are those chosen in turn from the listed points, and those with stones of one colour next to them are counted, with repetitions. *)
Theorem C110_counted_regions order dbg n b w g : Nat.divide (snd n) (fst n) -> rgreach dbg n b w g -> (forall l, order l ≡ₚ l) ->
  exists l G bt wt, pseudo_legals g = Ok l /\ rchosen n (position g) [] l G /\
    get_territories order dbg (gm_goban g) = Ok (bt, wt) /\
    rcounted n (position g) Black G bt.*1 /\ rcounted n (position g) White G wt.*1 /\
    (forall x, x ∈ bt \/ x ∈ wt -> snd x = None).
Proof. exact (rterritories_exact order dbg n b w g). Qed.
Print Assumptions C110_counted_regions.

Example C110_counted_regions_case dbg : exists g b w bt,
  Nat.divide 3 6 /\ 6 = 2 * 3 /\ rgreach dbg (6, 3) b w g /\ gm_passes g = 2 /\ gm_outcome g = None /\
  is_f32 (komi g) /\ halves (komi g) 15 /\ gm_prisoners g = (0%N, 0%N) /\
  get_territories (fun l => l) dbg (gm_goban g) = Ok (bt, []) /\ length bt = 10 /\
  times (0, 0) bt.*1 = 3 /\ position g (0, 0) = None /\ times (1, 1) bt.*1 = 1 /\ position g (1, 1) = Some Black /\
  rowned (6, 3) (position g) White (5, 1).
Proof. exact (case_rcount dbg). Qed.

(** C110: which points count, and how often, depends on the position and the listing only. *)
Theorem C110_regions_determined n P c l G G' L L' : rchosen n P [] l G -> rchosen n P [] l G' -> rcounted n P c G L -> rcounted n P c G' L' -> L ≡ₚ L'.
Proof. exact (rcount_determined n P c l G G' L L'). Qed.
Print Assumptions C110_regions_determined.

Example C110_regions_determined_case dbg : exists g b w l G L,
  rgreach dbg (6, 3) b w g /\ pseudo_legals g = Ok l /\ rchosen (6, 3) (position g) [] l G /\ rcounted (6, 3) (position g) Black G L /\ length L = 10.
Proof. exact (case_rdetermined dbg). Qed.

(** C110: on a board at least twice as high as wide a point counts once for every stone in the upper square that makes it count, and once more if it is in an empty region that reaches the first row. *)
Theorem C110_how_often_each_point_counts order dbg n b w g k : fst n = k * snd n -> 2 <= k -> rgreach dbg n b w g -> (forall l, order l ≡ₚ l) ->
  exists bt wt, get_territories order dbg (gm_goban g) = Ok (bt, wt) /\
    forall q, exists ab eb aw ew,
      card (stone_counts n (position g) Black q) ab /\ card (fun p => p = q /\ region_counts n (position g) Black q) eb /\
      card (stone_counts n (position g) White q) aw /\ card (fun p => p = q /\ region_counts n (position g) White q) ew /\
      times q bt.*1 = ab + eb /\ times q wt.*1 = aw + ew.
Proof. exact (rterritories_times order dbg n b w g k). Qed.
Print Assumptions C110_how_often_each_point_counts.

Example C110_how_often_each_point_counts_case dbg : exists g b w bt,
  Nat.divide 3 6 /\ 6 = 2 * 3 /\ rgreach dbg (6, 3) b w g /\ gm_passes g = 2 /\ gm_outcome g = None /\
  is_f32 (komi g) /\ halves (komi g) 15 /\ gm_prisoners g = (0%N, 0%N) /\
  get_territories (fun l => l) dbg (gm_goban g) = Ok (bt, []) /\ length bt = 10 /\
  times (0, 0) bt.*1 = 3 /\ position g (0, 0) = None /\ times (1, 1) bt.*1 = 1 /\ position g (1, 1) = Some Black /\
  rowned (6, 3) (position g) White (5, 1).
Proof. exact (case_rcount dbg). Qed.

(** C110: so the score always exists, and is exactly the sum over the counted points. *)
Theorem C110_score order dbg n b0 w0 g k2 flags : Nat.divide (snd n) (fst n) ->
  rgreach dbg n b0 w0 g -> (forall l, order l ≡ₚ l) ->
  is_f32 (komi g) -> halves (komi g) k2 -> (Z.abs k2 <= 200000)%Z ->
  (fst (gm_prisoners g) < 1000000)%N -> (snd (gm_prisoners g) < 1000000)%N ->
  exists b w l G bl wl,
    calculate_score_by order dbg g flags = Ok (b, w) /\
    pseudo_legals g = Ok l /\ rchosen n (position g) [] l G /\ rcounted n (position g) Black G bl /\ rcounted n (position g) White G wl /\
    is_f32 b /\ is_f32 w /\
    halves b (black2 flags (N.of_nat (length bl)) (N.of_nat (rcount n (position g) Black)) (fst (gm_prisoners g))) /\
    halves w (white2 flags (N.of_nat (length wl)) (N.of_nat (rcount n (position g) White)) (snd (gm_prisoners g)) k2).
Proof. exact (rscore_exact order dbg n b0 w0 g k2 flags). Qed.
Print Assumptions C110_score.

Example C110_score_case dbg : exists g b w bt,
  Nat.divide 3 6 /\ 6 = 2 * 3 /\ rgreach dbg (6, 3) b w g /\ gm_passes g = 2 /\ gm_outcome g = None /\
  is_f32 (komi g) /\ halves (komi g) 15 /\ gm_prisoners g = (0%N, 0%N) /\
  get_territories (fun l => l) dbg (gm_goban g) = Ok (bt, []) /\ length bt = 10 /\
  times (0, 0) bt.*1 = 3 /\ position g (0, 0) = None /\ times (1, 1) bt.*1 = 1 /\ position g (1, 1) = Some Black /\
  rowned (6, 3) (position g) White (5, 1).
Proof. exact (case_rcount dbg). Qed.

(** C110: and so is the outcome of a game finished by two passes. *)
Theorem C110_outcome order dbg n b0 w0 g k2 : Nat.divide (snd n) (fst n) ->
  rgreach dbg n b0 w0 g -> (forall l, order l ≡ₚ l) ->
  is_f32 (komi g) -> halves (komi g) k2 -> (Z.abs k2 <= 200000)%Z ->
  (fst (gm_prisoners g) < 1000000)%N -> (snd (gm_prisoners g) < 1000000)%N ->
  gm_outcome g = None -> gm_passes g = 2%nat ->
  exists l G bl wl,
    pseudo_legals g = Ok l /\ rchosen n (position g) [] l G /\ rcounted n (position g) Black G bl /\ rcounted n (position g) White G wl /\
    let B := black2 (flag_score (gm_rule g)) (N.of_nat (length bl)) (N.of_nat (rcount n (position g) Black)) (fst (gm_prisoners g)) in
    let Wh := white2 (flag_score (gm_rule g)) (N.of_nat (length wl)) (N.of_nat (rcount n (position g) White)) (snd (gm_prisoners g)) k2 in
    (outcome order dbg g = Ok (Some Draw) /\ B = Wh) \/
    (exists m, outcome order dbg g = Ok (Some (WinnerByScore Black m)) /\ (B > Wh)%Z /\ is_f32 m /\ halves m (B - Wh)) \/
    (exists m, outcome order dbg g = Ok (Some (WinnerByScore White m)) /\ (Wh > B)%Z /\ is_f32 m /\ halves m (Wh - B)).
Proof. exact (routcome_exact order dbg n b0 w0 g k2). Qed.
Print Assumptions C110_outcome.

Example C110_outcome_case dbg : exists g b w bt,
  Nat.divide 3 6 /\ 6 = 2 * 3 /\ rgreach dbg (6, 3) b w g /\ gm_passes g = 2 /\ gm_outcome g = None /\
  is_f32 (komi g) /\ halves (komi g) 15 /\ gm_prisoners g = (0%N, 0%N) /\
  get_territories (fun l => l) dbg (gm_goban g) = Ok (bt, []) /\ length bt = 10 /\
  times (0, 0) bt.*1 = 3 /\ position g (0, 0) = None /\ times (1, 1) bt.*1 = 1 /\ position g (1, 1) = Some Black /\
  rowned (6, 3) (position g) White (5, 1).
Proof. exact (case_rcount dbg). Qed.
