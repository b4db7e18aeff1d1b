(** Boards from lists of colours of every length: C120 *)
From stdpp Require Import relations sorting strings.
From Verif Require Import Spec Reach Observe AnySpec FromFacts FromClaims.
Local Notation length := Datatypes.length.
Open Scope nat_scope.

(** C120: exactly which lists of colours are refused, by debug and by release builds. *)
Theorem C120_panics dbg v :
  ((400 <= length v)%nat -> goban_from dbg v = Panic) /\
  ((length v < 400)%nat ->
     (goban_from dbg v = Panic <->
        exists i c, v !! i = Some (Some c) /\ ((if dbg then Nat.sqrt (length v) * Nat.sqrt (length v) else 361) <= i)%nat) /\
     (goban_from dbg v = Panic \/ exists g, goban_from dbg v = Ok g)).
Proof. exact (from_any dbg v). Qed.
Print Assumptions C120_panics.

Example C120_panics_case : goban_from true third_row = Panic /\ (exists g, goban_from false third_row = Ok g) /\
  (exists g, goban_from true (take 4 third_row ++ [None; None; None]) = Ok g /\ gsize g = (2, 2)%nat) /\
  (exists g, goban_from true [] = Ok g) /\
  goban_from false (replicate 361 None ++ [Some White]) = Panic /\
  (exists g, goban_from false (replicate 399 None) = Ok g) /\ length (replicate 400 (@None color)) = 400%nat.
Proof. exact case_from_any. Qed.

(** C120: what the board shows when the list is accepted. *)
Theorem C120_shows dbg v g : goban_from dbg v = Ok g ->
  gsize g = (Nat.sqrt (length v), Nat.sqrt (length v)) /\
  to_vec g = Ok (take 361 (v ++ replicate 361 None)) /\
  number_of_stones g = (count_of Black v, count_of White v) /\
  exists l, get_stones g = Ok l /\ length l = (count_of Black v + count_of White v)%nat /\
    forall x y c, ((x, y), c) ∈ l <-> (y < Nat.sqrt (length v))%nat /\ v !! (x * Nat.sqrt (length v) + y)%nat = Some (Some c).
Proof. exact (from_shows dbg v g). Qed.
Print Assumptions C120_shows.

Example C120_shows_case : exists g, goban_from false third_row = Ok g /\ number_of_stones g = (2, 1)%nat /\
  to_vec g = Ok (third_row ++ replicate 356 None).
Proof. exact case_from_shows. Qed.

(** C120: that a list whose length is not a square is refused is false, and so is that the board has only stones on it. *)
Theorem C120_squares_only_refuted : exists g g', goban_from false third_row = Ok g /\ goban_from false (take 4 third_row) = Ok g' /\
  goban_from true third_row = Panic /\ gsize g = (2, 2)%nat /\ gsize g' = (2, 2)%nat /\
  get_stones g = Ok [((0, 1)%nat, Black); ((1, 0)%nat, White); ((2, 0)%nat, Black)] /\
  get_stones g' = Ok [((0, 1)%nat, Black); ((1, 0)%nat, White)] /\
  (forall p, on 2 p -> pos_of g p = pos_of g' p) /\ goban_eq g g' = Ok false.
Proof. exact from_past_board. Qed.
Print Assumptions C120_squares_only_refuted.
