(** Model of src/pieces/territory.rs. *)
From Verif Require Export Goban.

(** A [HashSet<Point>] is a list without repetition; its iteration order, which
    Rust leaves unspecified, is the parameter [order] below.
    src/pieces/territory.rs:18-36 *)
Definition set_contains (s : list point) (p : point) : bool := existsb (point_eqb p) s.
(** [HashSet::insert], src/pieces/territory.rs:28 *)
Definition set_insert (s : list point) (p : point) : list point :=
  if set_contains s p then s else s ++ [p].

(** src/pieces/territory.rs:27-35: the [while let Some(..) = to_explore.pop()]
    loop.  [Vec::pop] takes the last element: the model keeps the vector with
    its end first, so that [pop] is the head and [extend] prepends the reversed
    extension.  Running out of fuel is [Diverge]. *)
Fixpoint explore (fuel : nat) (dbg : bool) (g : goban) (mc : option color)
    (explored to_explore : list point) : res (list point) :=
  match fuel with
  | O => Diverge
  | S f =>
      match to_explore with
      | [] => Ok explored
      | s :: rest =>
          let explored := set_insert explored s in
          let! nb := get_connected_points dbg g (fst s) in
          let new := List.filter (fun p => mcolor_eqb (snd p) mc
                                           && negb (set_contains explored p)) nb in
          explore f dbg g mc explored (rev new ++ rest)
      end
  end.

(** Fuel for the loop of src/pieces/territory.rs:27-35 above: each of the at most 361 points of the board is
    explored for the first time once, a visit pushes at most four points, and a
    visit of an explored point that pushes something is followed by a first
    visit.  [TerritoryFacts.v] proves that it always suffices. *)
Definition explore_fuel : nat := 3000.

(** src/pieces/territory.rs:18-37 [get_group_from_point] *)
Definition get_group_from_point (dbg : bool) (g : goban) (s : point) : res (list point) :=
  let! nb := get_connected_points dbg g (fst s) in
  let to_explore := List.filter (fun p => mcolor_eqb (snd p) (snd s)) nb in
  explore explore_fuel dbg g (snd s) [s] (rev to_explore).

(** src/pieces/territory.rs:45-58 [get_chains_from_stones] *)
Definition get_chains_from_stones (dbg : bool) (g : goban) (stones : list point)
  : res (list (list point)) :=
  foldM (fun acc s =>
           if existsb (fun set => set_contains set s) acc then Ok acc
           else let! grp := get_group_from_point dbg g s in Ok (acc ++ [grp]))
        stones [].

Section Territories.
  (** iteration order of hash sets *)
  Variable order : list point -> list point.
  Variable dbg : bool.

  (** src/pieces/territory.rs:70-84: which colours border an empty region
      ((black, white)); [None] is the [continue 'outer] taken as soon as both
      have been seen. *)
  Fixpoint scan_points (pts : list point) (neutral : bool * bool)
    : option (bool * bool) :=
    match pts with
    | [] => Some neutral
    | p :: t =>
        let n1 := if mcolor_eqb (snd p) (Some White) then (fst neutral, true) else neutral in
        let n2 := if mcolor_eqb (snd p) (Some Black) then (true, snd n1) else n1 in
        if fst n2 && snd n2 then None else scan_points t n2
    end.

  (** src/pieces/territory.rs:71-84: the loop over the points of the region *)
  Fixpoint scan_group (g : goban) (grp : list point) (neutral : bool * bool)
    : res (option (bool * bool)) :=
    match grp with
    | [] => Ok (Some neutral)
    | e :: t =>
        let! nb := get_connected_points dbg g (fst e) in
        match scan_points nb neutral with
        | None => Ok None
        | Some n => scan_group g t n
        end
    end.

  (** src/pieces/territory.rs:61-92 [get_territories]: (black, white) *)
  Definition get_territories (g : goban) : res (list point * list point) :=
    let! empties := get_empty_coords g in
    let! empty_chains :=
      get_chains_from_stones dbg g (List.map (fun p => (p, None)) empties) in
    foldM (fun '(bt, wt) grp =>
             let! s := scan_group g (order grp) (false, false) in
             match s with
             | None => Ok (bt, wt)
             | Some (nb, nw) =>
                 if nb && negb nw then Ok (bt ++ order grp, wt)
                 else if negb nb && nw then Ok (bt, wt ++ order grp)
                 else Ok (bt, wt)
             end) empty_chains ([], []).

  (** src/pieces/territory.rs:101-104 [calculate_territories] *)
  Definition calculate_territories (g : goban) : res (nat * nat) :=
    let! '(bt, wt) := get_territories g in
    Ok (length bt, length wt).
End Territories.
