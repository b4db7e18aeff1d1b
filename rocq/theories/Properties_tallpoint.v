(** Single points of boards whose width divides their height: C125 *)
From stdpp Require Import relations sorting strings.
From Verif Require Import Spec Reach Observe VerdictSpec PlayoutSpec GroupMore RectSpec RectVerdictSpec RectReach TallPoint.
Local Notation length := Datatypes.length.
Open Scope nat_scope.

(** C125: the queries about the neighbours of a point. *)
Theorem C125_neighbours_of_a_point dbg n b w g p : Nat.divide (snd n) (fst n) -> rgreach dbg n b w g -> ron n p ->
  (exists l, get_connected_points dbg (gm_goban g) p = Ok l /\ NoDup l.*1 /\ forall q c, (q, c) ∈ l <-> ron n q /\ adj p q /\ position g q = c) /\
  (exists l, get_connected_stones dbg (gm_goban g) p = Ok l /\ NoDup l.*1 /\ forall q c, (q, c) ∈ l <-> ron n q /\ adj p q /\ position g q = Some c) /\
  (exists l, get_liberties dbg (gm_goban g) p = Ok l /\ NoDup l /\ (forall q, q ∈ l <-> ron n q /\ adj p q /\ position g q = None) /\
     has_liberties dbg (gm_goban g) p = Ok (negb (length l =? 0))).
Proof. exact (tall_neighbours dbg n b w g p). Qed.
Print Assumptions C125_neighbours_of_a_point.

Example C125_neighbours_of_a_point_case dbg : exists g b w, Nat.divide 4 8 /\ rgreach dbg (8, 4) b w g /\ ~ no_slot_left g /\ ron (8, 4) (1, 1) /\ ron (8, 4) (7, 0) /\
  position g (1, 1) = None /\ position g (0, 1) = Some Black /\ position g (1, 2) = Some Black /\ position g (2, 2) = Some White /\ position g (7, 0) = None /\
  get_liberties dbg (gm_goban g) (1, 1) = Ok [] /\ has_liberties dbg (gm_goban g) (1, 1) = Ok false /\ has_liberties dbg (gm_goban g) (7, 0) = Ok true /\
  check_point_by dbg g (1, 1) KO = Ok (Some EKo) /\ check_point_by dbg g (1, 1) SUICIDE = Ok None /\
  check_ko dbg g ((1, 1), gm_turn g) = Ok true /\ will_capture dbg g (1, 1) = Ok true /\ will_capture dbg g (7, 0) = Ok false.
Proof. exact (case_tall_ko dbg). Qed.

(** C125: the groups next to a point are listed once each, with their numbers. *)
Theorem C125_groups_of_a_point dbg n b w g p : Nat.divide (snd n) (fst n) -> rgreach dbg n b w g -> ron n p ->
  exists ks gs, get_connected_groups_idx dbg (gm_goban g) (index (fst n) p) = Ok ks /\ get_connected_groups dbg (gm_goban g) p = Ok gs /\ NoDup ks /\
    (forall k, k ∈ ks <-> exists q, ron n q /\ adj p q /\ group_no (gm_goban g) q = Some k) /\
    Forall2 (fun k grp => chains (gm_goban g) !! k = Some (Some grp)) ks gs.
Proof. exact (tall_groups dbg n b w g p). Qed.
Print Assumptions C125_groups_of_a_point.

Example C125_groups_of_a_point_case dbg : exists g b w, Nat.divide 4 8 /\ rgreach dbg (8, 4) b w g /\ ~ no_slot_left g /\ ron (8, 4) (1, 1) /\ ron (8, 4) (7, 0) /\
  position g (1, 1) = None /\ position g (0, 1) = Some Black /\ position g (1, 2) = Some Black /\ position g (2, 2) = Some White /\ position g (7, 0) = None /\
  get_liberties dbg (gm_goban g) (1, 1) = Ok [] /\ has_liberties dbg (gm_goban g) (1, 1) = Ok false /\ has_liberties dbg (gm_goban g) (7, 0) = Ok true /\
  check_point_by dbg g (1, 1) KO = Ok (Some EKo) /\ check_point_by dbg g (1, 1) SUICIDE = Ok None /\
  check_ko dbg g ((1, 1), gm_turn g) = Ok true /\ will_capture dbg g (1, 1) = Ok true /\ will_capture dbg g (7, 0) = Ok false.
Proof. exact (case_tall_ko dbg). Qed.

(** C125: the calls of [next] give the stones of the group one after the other and then [None] for ever. *)
Theorem C125_iterator_calls dbg n b w g k grp : Nat.divide (snd n) (fst n) -> rgreach dbg n b w g -> chains (gm_goban g) !! k = Some (Some grp) ->
  exists l, NoDup l /\ (forall i, i ∈ l <-> exists p, ron n p /\ i = index (fst n) p /\ group_no (gm_goban g) p = Some k) /\
    group_iter dbg grp (next_stone (gm_goban g)) = Ok l /\
    forall i, exists it it', iter_after dbg (next_stone (gm_goban g)) (iter_new grp) i = Ok it /\
      iter_next dbg (next_stone (gm_goban g)) it = Ok (it', l !! i) /\
      iter_size_hint it = (length l, Some (length l)).
Proof. exact (tall_iterator dbg n b w g k grp). Qed.
Print Assumptions C125_iterator_calls.

Example C125_iterator_calls_case dbg : exists g b w k grp l, Nat.divide 3 6 /\ rgreach dbg (6, 3) b w g /\ group_no (gm_goban g) (4, 0) = Some k /\
  chains (gm_goban g) !! k = Some (Some grp) /\ group_iter dbg grp (next_stone (gm_goban g)) = Ok l /\ length l = 3 /\
  position g (4, 0) = Some Black /\ position g (5, 0) = Some Black /\ position g (5, 1) = Some Black.
Proof. exact (case_tall_walk dbg). Qed.

(** C125: [get_empty_idx] lists the indices of the occupied points. *)
Theorem C125_occupied_indices dbg n b w g : Nat.divide (snd n) (fst n) -> rgreach dbg n b w g ->
  StronglySorted lt (get_empty_idx (gm_goban g)) /\
  forall i, i ∈ get_empty_idx (gm_goban g) <-> exists p, ron n p /\ i = index (fst n) p /\ position g p <> None.
Proof. exact (tall_occupied dbg n b w g). Qed.
Print Assumptions C125_occupied_indices.

Example C125_occupied_indices_case dbg : exists g b w, Nat.divide 4 8 /\ rgreach dbg (8, 4) b w g /\ ~ no_slot_left g /\ ron (8, 4) (1, 1) /\ ron (8, 4) (7, 0) /\
  position g (1, 1) = None /\ position g (0, 1) = Some Black /\ position g (1, 2) = Some Black /\ position g (2, 2) = Some White /\ position g (7, 0) = None /\
  get_liberties dbg (gm_goban g) (1, 1) = Ok [] /\ has_liberties dbg (gm_goban g) (1, 1) = Ok false /\ has_liberties dbg (gm_goban g) (7, 0) = Ok true /\
  check_point_by dbg g (1, 1) KO = Ok (Some EKo) /\ check_point_by dbg g (1, 1) SUICIDE = Ok None /\
  check_ko dbg g ((1, 1), gm_turn g) = Ok true /\ will_capture dbg g (1, 1) = Ok true /\ will_capture dbg g (7, 0) = Ok false.
Proof. exact (case_tall_ko dbg). Qed.

(** C125: [check_point_by] is exact for every mask. *)
Theorem C125_check_point_exact dbg n b w g p f v : Nat.divide (snd n) (fst n) -> rgreach dbg n b w g -> ron n p -> ~ no_slot_left g ->
  (check_point_by dbg g p f = Ok (error_of v) <-> first_reason (rpoint_reasons n f (table_of g) p) v).
Proof. exact (tall_check dbg n b w g p f v). Qed.
Print Assumptions C125_check_point_exact.

Example C125_check_point_exact_case dbg : exists g b w, Nat.divide 4 8 /\ rgreach dbg (8, 4) b w g /\ ~ no_slot_left g /\ ron (8, 4) (1, 1) /\ ron (8, 4) (7, 0) /\
  position g (1, 1) = None /\ position g (0, 1) = Some Black /\ position g (1, 2) = Some Black /\ position g (2, 2) = Some White /\ position g (7, 0) = None /\
  get_liberties dbg (gm_goban g) (1, 1) = Ok [] /\ has_liberties dbg (gm_goban g) (1, 1) = Ok false /\ has_liberties dbg (gm_goban g) (7, 0) = Ok true /\
  check_point_by dbg g (1, 1) KO = Ok (Some EKo) /\ check_point_by dbg g (1, 1) SUICIDE = Ok None /\
  check_ko dbg g ((1, 1), gm_turn g) = Ok true /\ will_capture dbg g (1, 1) = Ok true /\ will_capture dbg g (7, 0) = Ok false.
Proof. exact (case_tall_ko dbg). Qed.

(** C125: [check_ko] is exact. *)
Theorem C125_check_ko_exact dbg n b w g p c : Nat.divide (snd n) (fst n) -> rgreach dbg n b w g -> ron n p -> position g p = None ->
  exists v, check_ko dbg g (p, c) = Ok v /\ (v = true <-> rko_banned n (table_of g) p).
Proof. exact (tall_check_ko dbg n b w g p c). Qed.
Print Assumptions C125_check_ko_exact.

Example C125_check_ko_exact_case dbg : exists g b w, Nat.divide 4 8 /\ rgreach dbg (8, 4) b w g /\ ~ no_slot_left g /\ ron (8, 4) (1, 1) /\ ron (8, 4) (7, 0) /\
  position g (1, 1) = None /\ position g (0, 1) = Some Black /\ position g (1, 2) = Some Black /\ position g (2, 2) = Some White /\ position g (7, 0) = None /\
  get_liberties dbg (gm_goban g) (1, 1) = Ok [] /\ has_liberties dbg (gm_goban g) (1, 1) = Ok false /\ has_liberties dbg (gm_goban g) (7, 0) = Ok true /\
  check_point_by dbg g (1, 1) KO = Ok (Some EKo) /\ check_point_by dbg g (1, 1) SUICIDE = Ok None /\
  check_ko dbg g ((1, 1), gm_turn g) = Ok true /\ will_capture dbg g (1, 1) = Ok true /\ will_capture dbg g (7, 0) = Ok false.
Proof. exact (case_tall_ko dbg). Qed.

(** C125: [check_super_ko] is exact. *)
Theorem C125_check_super_ko_exact dbg n b w g p : Nat.divide (snd n) (fst n) -> rgreach dbg n b w g -> ron n p -> position g p = None -> ~ no_slot_left g ->
  exists v, check_super_ko dbg g (p, gm_turn g) = Ok v /\ (v = true <-> rsuperko_banned n (table_of g) p).
Proof. exact (tall_check_super_ko dbg n b w g p). Qed.
Print Assumptions C125_check_super_ko_exact.

Example C125_check_super_ko_exact_case dbg : exists g b w, Nat.divide 1 3 /\ rgreach dbg (3, 1) b w g /\ ron (3, 1) (0, 0) /\ position g (0, 0) = None /\ ~ no_slot_left g /\
  check_super_ko dbg g ((0, 0), gm_turn g) = Ok true /\ check_ko dbg g ((0, 0), gm_turn g) = Ok false.
Proof. exact (case_tall_super dbg). Qed.

(** C125: [check_suicide] is exact. *)
Theorem C125_check_suicide_exact dbg n b w g p c : Nat.divide (snd n) (fst n) -> rgreach dbg n b w g -> ron n p -> position g p = None ->
  exists v, check_suicide dbg g (p, c) = Ok v /\ (v = true <-> rsuicidal n (position g) p c).
Proof. exact (tall_check_suicide dbg n b w g p c). Qed.
Print Assumptions C125_check_suicide_exact.

Example C125_check_suicide_exact_case dbg : exists g b w, Nat.divide 3 6 /\ 6 = 2 * 3 /\ rgreach dbg (6, 3) b w g /\ ~ no_slot_left g /\ gm_turn g = White /\ ron (6, 3) (0, 0) /\ position g (0, 0) = None /\
  play dbg g (MPlay 0 0) <> Panic /\ check_suicide dbg g ((0, 0), White) = Ok true /\
  ron (6, 3) (1, 1) /\ position g (1, 1) = None /\ play dbg g (MPlay 1 1) <> Panic /\ check_suicide dbg g ((1, 1), White) = Ok false /\
  ~ first_reason (rpoint_reasons (6, 3) SUICIDE (table_of g) (0, 0)) Accepted /\ first_reason (rpoint_reasons (6, 3) SUICIDE (table_of g) (1, 1)) Accepted.
Proof. exact (case_tall_trial dbg). Qed.

(** C125: [will_capture] is exact. *)
Theorem C125_will_capture_exact dbg n b w g p : Nat.divide (snd n) (fst n) -> rgreach dbg n b w g -> ron n p -> position g p = None ->
  exists v, will_capture dbg g p = Ok v /\ (v = true <-> rcaptures n (position g) p (gm_turn g)).
Proof. exact (tall_will_capture dbg n b w g p). Qed.
Print Assumptions C125_will_capture_exact.

Example C125_will_capture_exact_case dbg : exists g b w, Nat.divide 4 8 /\ rgreach dbg (8, 4) b w g /\ ~ no_slot_left g /\ ron (8, 4) (1, 1) /\ ron (8, 4) (7, 0) /\
  position g (1, 1) = None /\ position g (0, 1) = Some Black /\ position g (1, 2) = Some Black /\ position g (2, 2) = Some White /\ position g (7, 0) = None /\
  get_liberties dbg (gm_goban g) (1, 1) = Ok [] /\ has_liberties dbg (gm_goban g) (1, 1) = Ok false /\ has_liberties dbg (gm_goban g) (7, 0) = Ok true /\
  check_point_by dbg g (1, 1) KO = Ok (Some EKo) /\ check_point_by dbg g (1, 1) SUICIDE = Ok None /\
  check_ko dbg g ((1, 1), gm_turn g) = Ok true /\ will_capture dbg g (1, 1) = Ok true /\ will_capture dbg g (7, 0) = Ok false.
Proof. exact (case_tall_ko dbg). Qed.

(** C125: [check_eye] recognises exactly the eye shapes. *)
Theorem C125_eye_exact dbg n b w g p c : Nat.divide (snd n) (fst n) -> rgreach dbg n b w g -> ron n p ->
  exists v, check_eye dbg g (p, c) = Ok v /\ (v = true <-> reye_shape n (position g) c p).
Proof. exact (tall_check_eye dbg n b w g p c). Qed.
Print Assumptions C125_eye_exact.

Example C125_eye_exact_case dbg : exists g b w, Nat.divide 4 8 /\ rgreach dbg (8, 4) b w g /\ ron (8, 4) (0, 0) /\ ron (8, 4) (7, 3) /\ ron (8, 4) (2, 2) /\
  check_eye dbg g ((0, 0), Black) = Ok true /\ check_eye dbg g ((7, 3), Black) = Ok false /\ check_eye dbg g ((2, 2), Black) = Ok false /\
  position g (7, 2) = Some Black /\ position g (6, 3) = Some Black /\ position g (6, 2) = Some White.
Proof. exact (case_tall_eyes dbg). Qed.

(** C125: [legals_by] lists the points of the upper square without a reason to refuse them, each height/width times, and no other point. *)
Theorem C125_legals_by_counts dbg n b w g f k p : fst n = k * snd n -> rgreach dbg n b w g -> ~ no_slot_left g ->
  exists l, legals_by dbg g f = Ok l /\
    (fst p < snd n -> snd p < snd n -> first_reason (rpoint_reasons n f (table_of g) p) Accepted -> times p l = k) /\
    (~ (fst p < snd n /\ snd p < snd n /\ first_reason (rpoint_reasons n f (table_of g) p) Accepted) -> times p l = 0).
Proof. exact (tall_legals_by dbg n b w g f k p). Qed.
Print Assumptions C125_legals_by_counts.

Example C125_legals_by_counts_case dbg : exists g b w, Nat.divide 3 6 /\ 6 = 2 * 3 /\ rgreach dbg (6, 3) b w g /\ ~ no_slot_left g /\ gm_turn g = White /\ ron (6, 3) (0, 0) /\ position g (0, 0) = None /\
  play dbg g (MPlay 0 0) <> Panic /\ check_suicide dbg g ((0, 0), White) = Ok true /\
  ron (6, 3) (1, 1) /\ position g (1, 1) = None /\ play dbg g (MPlay 1 1) <> Panic /\ check_suicide dbg g ((1, 1), White) = Ok false /\
  ~ first_reason (rpoint_reasons (6, 3) SUICIDE (table_of g) (0, 0)) Accepted /\ first_reason (rpoint_reasons (6, 3) SUICIDE (table_of g) (1, 1)) Accepted.
Proof. exact (case_tall_trial dbg). Qed.

(** C125: [play_for_verification] predicts [play] exactly for moves that are no suicide. *)
Theorem C125_verification_exact dbg n b w g x y : Nat.divide (snd n) (fst n) -> rgreach dbg n b w g -> ron n (x, y) -> position g (x, y) = None ->
  play dbg g (MPlay x y) <> Panic ->
  exists v g' r, play_for_verification dbg g (x, y) = Ok v /\ play dbg g (MPlay x y) = Ok g' /\
    goban_eq v (gm_goban g') = Ok r /\ (r = true <-> ~ rsuicidal n (position g) (x, y) (gm_turn g)).
Proof. exact (tall_verification dbg n b w g x y). Qed.
Print Assumptions C125_verification_exact.

Example C125_verification_exact_case dbg : exists g b w, Nat.divide 3 6 /\ 6 = 2 * 3 /\ rgreach dbg (6, 3) b w g /\ ~ no_slot_left g /\ gm_turn g = White /\ ron (6, 3) (0, 0) /\ position g (0, 0) = None /\
  play dbg g (MPlay 0 0) <> Panic /\ check_suicide dbg g ((0, 0), White) = Ok true /\
  ron (6, 3) (1, 1) /\ position g (1, 1) = None /\ play dbg g (MPlay 1 1) <> Panic /\ check_suicide dbg g ((1, 1), White) = Ok false /\
  ~ first_reason (rpoint_reasons (6, 3) SUICIDE (table_of g) (0, 0)) Accepted /\ first_reason (rpoint_reasons (6, 3) SUICIDE (table_of g) (1, 1)) Accepted.
Proof. exact (case_tall_trial dbg). Qed.

(** C125: so it does not always. *)
Theorem C125_verification_refuted dbg : exists g b w v g', rgreach dbg (6, 3) b w g /\ position g (0, 0) = None /\
  play_for_verification dbg g (0, 0) = Ok v /\ play dbg g (MPlay 0 0) = Ok g' /\ goban_eq v (gm_goban g') = Ok false.
Proof. exact (tall_trial_wrong dbg). Qed.
Print Assumptions C125_verification_refuted.
