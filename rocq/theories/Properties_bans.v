(** The bans of a rule act independently: C136 *)
From stdpp Require Import relations sorting strings.
From Verif Require Import Spec Reach Observe BansSpec GameFacts BansFacts BansCases.
Local Notation length := Datatypes.length.
Open Scope nat_scope.

(** C136: in any state of a game only the four flags of a mask matter to the check of a point. *)
Theorem C136_only_four_flags dbg g p F F' : same_flags F F' -> check_point_by dbg g p F = check_point_by dbg g p F'.
Proof. exact (same_bans dbg g p F F'). Qed.
Print Assumptions C136_only_four_flags.

Example C136_only_four_flags_case dbg : exists g b w l l' q, greach dbg 9 b w g /\ legals_by dbg g KO = Ok l /\ legals_by dbg g (N.lor SUICIDE FILLEYE) = Ok l' /\ legals_by dbg g 0 = Ok q /\
  fewer_bans 0 KO /\ same_flags KO 17 /\
  check_point_by dbg g (1, 1) KO = Ok (Some EKo) /\ check_point_by dbg g (1, 1) (N.lor SUICIDE FILLEYE) = Ok None /\
  check_point_by dbg g (0, 0) KO = Ok None /\ check_point_by dbg g (0, 0) (N.lor SUICIDE FILLEYE) = Ok (Some ESuicide) /\
  length q = 73 /\ length l = 72 /\ length l' = 71 /\ (1, 1) ∉ l /\ (1, 1) ∈ l' /\ (0, 0) ∈ l /\ (0, 0) ∉ l'.
Proof. exact (case_bans dbg). Qed.

(** C136: a point passes two masks together exactly when it passes each of them. *)
Theorem C136_bans_together dbg g p F F' :
  check_point_by dbg g p (N.lor F F') = Ok None <-> check_point_by dbg g p F = Ok None /\ check_point_by dbg g p F' = Ok None.
Proof. exact (bans_together dbg g p F F'). Qed.
Print Assumptions C136_bans_together.

Example C136_bans_together_case dbg : exists g b w l l' q, greach dbg 9 b w g /\ legals_by dbg g KO = Ok l /\ legals_by dbg g (N.lor SUICIDE FILLEYE) = Ok l' /\ legals_by dbg g 0 = Ok q /\
  fewer_bans 0 KO /\ same_flags KO 17 /\
  check_point_by dbg g (1, 1) KO = Ok (Some EKo) /\ check_point_by dbg g (1, 1) (N.lor SUICIDE FILLEYE) = Ok None /\
  check_point_by dbg g (0, 0) KO = Ok None /\ check_point_by dbg g (0, 0) (N.lor SUICIDE FILLEYE) = Ok (Some ESuicide) /\
  length q = 73 /\ length l = 72 /\ length l' = 71 /\ (1, 1) ∉ l /\ (1, 1) ∈ l' /\ (0, 0) ∈ l /\ (0, 0) ∉ l'.
Proof. exact (case_bans dbg). Qed.

(** C136: when both masks are answered, both together are answered with one of the two answers. *)
Theorem C136_answer_of_both dbg g p F F' e e' : check_point_by dbg g p F = Ok e -> check_point_by dbg g p F' = Ok e' ->
  exists e'', check_point_by dbg g p (N.lor F F') = Ok e'' /\ (e'' = e \/ e'' = e') /\ (e'' = None <-> e = None /\ e' = None).
Proof. exact (both_bans dbg g p F F' e e'). Qed.
Print Assumptions C136_answer_of_both.

Example C136_answer_of_both_case dbg : exists g b w l l' q, greach dbg 9 b w g /\ legals_by dbg g KO = Ok l /\ legals_by dbg g (N.lor SUICIDE FILLEYE) = Ok l' /\ legals_by dbg g 0 = Ok q /\
  fewer_bans 0 KO /\ same_flags KO 17 /\
  check_point_by dbg g (1, 1) KO = Ok (Some EKo) /\ check_point_by dbg g (1, 1) (N.lor SUICIDE FILLEYE) = Ok None /\
  check_point_by dbg g (0, 0) KO = Ok None /\ check_point_by dbg g (0, 0) (N.lor SUICIDE FILLEYE) = Ok (Some ESuicide) /\
  length q = 73 /\ length l = 72 /\ length l' = 71 /\ (1, 1) ∉ l /\ (1, 1) ∈ l' /\ (0, 0) ∈ l /\ (0, 0) ∉ l'.
Proof. exact (case_bans dbg). Qed.

(** C136: the legal moves for two masks together are the common part of the two lists, in the same order. *)
Theorem C136_legals_together dbg g F F' l l' : legals_by dbg g F = Ok l -> legals_by dbg g F' = Ok l' ->
  legals_by dbg g (N.lor F F') = Ok (List.filter (fun p => bool_decide (p ∈ l')) l).
Proof. exact (legals_together dbg g F F' l l'). Qed.
Print Assumptions C136_legals_together.

Example C136_legals_together_case dbg : exists g b w l l' q, greach dbg 9 b w g /\ legals_by dbg g KO = Ok l /\ legals_by dbg g (N.lor SUICIDE FILLEYE) = Ok l' /\ legals_by dbg g 0 = Ok q /\
  fewer_bans 0 KO /\ same_flags KO 17 /\
  check_point_by dbg g (1, 1) KO = Ok (Some EKo) /\ check_point_by dbg g (1, 1) (N.lor SUICIDE FILLEYE) = Ok None /\
  check_point_by dbg g (0, 0) KO = Ok None /\ check_point_by dbg g (0, 0) (N.lor SUICIDE FILLEYE) = Ok (Some ESuicide) /\
  length q = 73 /\ length l = 72 /\ length l' = 71 /\ (1, 1) ∉ l /\ (1, 1) ∈ l' /\ (0, 0) ∈ l /\ (0, 0) ∉ l'.
Proof. exact (case_bans dbg). Qed.

(** C136: more bans leave a part of the list, in the same order. *)
Theorem C136_legals_shrink dbg g F F' l l' : fewer_bans F F' -> legals_by dbg g F = Ok l -> legals_by dbg g F' = Ok l' -> sublist l' l.
Proof. exact (legals_shrink dbg g F F' l l'). Qed.
Print Assumptions C136_legals_shrink.

Example C136_legals_shrink_case dbg : exists g b w l l' q, greach dbg 9 b w g /\ legals_by dbg g KO = Ok l /\ legals_by dbg g (N.lor SUICIDE FILLEYE) = Ok l' /\ legals_by dbg g 0 = Ok q /\
  fewer_bans 0 KO /\ same_flags KO 17 /\
  check_point_by dbg g (1, 1) KO = Ok (Some EKo) /\ check_point_by dbg g (1, 1) (N.lor SUICIDE FILLEYE) = Ok None /\
  check_point_by dbg g (0, 0) KO = Ok None /\ check_point_by dbg g (0, 0) (N.lor SUICIDE FILLEYE) = Ok (Some ESuicide) /\
  length q = 73 /\ length l = 72 /\ length l' = 71 /\ (1, 1) ∉ l /\ (1, 1) ∈ l' /\ (0, 0) ∈ l /\ (0, 0) ∉ l'.
Proof. exact (case_bans dbg). Qed.
