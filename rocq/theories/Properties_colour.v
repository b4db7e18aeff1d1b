(** The points of a colour on boards that are not square: C35 *)
From stdpp Require Import relations sorting strings.
From Verif Require Import Spec Reach Observe RectSpec RectReach AnySpec ColourClaims.
Local Notation length := Datatypes.length.
Open Scope nat_scope.

(** C35: the same if the width divides the height: the points whose index, counted with rows as long as the board is high, is below height*width mod 256; for empty points there are that many entries, so some points come several times. *)
Theorem C35_points_by_colour_tall dbg n b w g mc : Nat.divide (snd n) (fst n) -> rgreach dbg n b w g ->
  ((256 <= fst n * snd n) -> dbg = true -> get_coords_by_color dbg (gm_goban g) mc = Panic /\ get_stones_by_color dbg (gm_goban g) mc = Panic) /\
  ((fst n * snd n < 256) \/ dbg = false -> exists l,
     get_coords_by_color dbg (gm_goban g) mc = Ok l /\ get_stones_by_color dbg (gm_goban g) mc = Ok (List.map (fun p => (p, mc)) l) /\
     (mc <> None -> StronglySorted row_major l) /\ (mc = None -> length l = (fst n * snd n) mod 256) /\
     forall p, p ∈ l <-> ron n p /\ (index (fst n) p < (fst n * snd n) mod 256) /\ (mc = None \/ position g p = mc)).
Proof. exact (colour_tall dbg n b w g mc). Qed.
Print Assumptions C35_points_by_colour_tall.

Example C35_points_by_colour_tall_case dbg : exists g b w l, Nat.divide 3 6 /\ rgreach dbg (6, 3) b w g /\
  position g (0, 1) = Some Black /\ position g (2, 2) = Some White /\ position g (3, 0) = Some Black /\
  get_coords_by_color dbg (gm_goban g) (Some Black) = Ok [(0, 1)] /\ get_coords_by_color dbg (gm_goban g) (Some White) = Ok [(2, 2)] /\
  get_coords_by_color dbg (gm_goban g) None = Ok l /\ l = [(0, 0); (0, 1); (0, 2); (0, 0); (0, 1); (0, 2); (1, 0); (1, 1); (1, 2); (1, 0); (1, 1); (1, 2);
    (2, 0); (2, 1); (2, 2); (2, 0); (2, 1); (2, 2)].
Proof. exact (case_colour_tall dbg). Qed.

(** C35: on such a board no point of the rows from the width on is ever listed. *)
Theorem C35_lower_rows_are_never_listed dbg n b w g mc l p : Nat.divide (snd n) (fst n) -> rgreach dbg n b w g ->
  get_coords_by_color dbg (gm_goban g) mc = Ok l -> p ∈ l -> (fst p < snd n).
Proof. exact (colour_low_rows dbg n b w g mc l p). Qed.
Print Assumptions C35_lower_rows_are_never_listed.

Example C35_lower_rows_are_never_listed_case dbg : exists g b w l, Nat.divide 3 6 /\ rgreach dbg (6, 3) b w g /\
  position g (0, 1) = Some Black /\ position g (2, 2) = Some White /\ position g (3, 0) = Some Black /\
  get_coords_by_color dbg (gm_goban g) (Some Black) = Ok [(0, 1)] /\ get_coords_by_color dbg (gm_goban g) (Some White) = Ok [(2, 2)] /\
  get_coords_by_color dbg (gm_goban g) None = Ok l /\ l = [(0, 0); (0, 1); (0, 2); (0, 0); (0, 1); (0, 2); (1, 0); (1, 1); (1, 2); (1, 0); (1, 1); (1, 2);
    (2, 0); (2, 1); (2, 2); (2, 0); (2, 1); (2, 2)].
Proof. exact (case_colour_tall dbg). Qed.

(** C35: so a small board that is not square hides stones. *)
Theorem C35_points_by_colour_tall_refuted dbg : exists g b w, rgreach dbg (6, 3) b w g /\ ron (6, 3) (3, 0) /\ position g (3, 0) = Some Black /\
  exists l, get_coords_by_color dbg (gm_goban g) (Some Black) = Ok l /\ (3, 0) ∉ l.
Proof. exact (colour_tall_refuted dbg). Qed.
Print Assumptions C35_points_by_colour_tall_refuted.

(** C35: in release builds on a board of any shape: the cells of the array below height*width mod 256 of that colour, each under row index/height and column index mod width. *)
Theorem C35_points_by_colour_any_shape s b w g mc : areach s b w g -> exists v l, to_vec (gm_goban g) = Ok v /\
  get_coords_by_color false (gm_goban g) mc = Ok l /\ get_stones_by_color false (gm_goban g) mc = Ok (List.map (fun p => (p, mc)) l) /\
  (mc = None -> length l = (fst s * snd s) mod 256) /\
  forall p, p ∈ l <-> exists i, (i < (fst s * snd s) mod 256) /\ p = (i / fst s, i mod snd s) /\ (mc = None \/ v !! i = Some mc).
Proof. exact (colour_any s b w g mc). Qed.
Print Assumptions C35_points_by_colour_any_shape.

Example C35_points_by_colour_any_shape_case : exists g b w, areach (5, 4) b w g /\ pos_of (gm_goban g) (1, 0) = Some Black /\ pos_of (gm_goban g) (3, 3) = Some White /\
  get_coords_by_color false (gm_goban g) (Some Black) = Ok [(0, 1); (1, 1)] /\ get_coords_by_color false (gm_goban g) (Some White) = Ok [(3, 2)].
Proof. exact case_colour_any. Qed.
