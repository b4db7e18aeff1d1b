(** Games on boards of any size. *)
From Verif Require Export Reach RectSpec TableSpec RectTableSpec.

(** a size of board: one to nineteen rows and columns *)
Definition board_size (s : nat * nat) : Prop := (1 <= fst s <= 19)%nat /\ (1 <= snd s <= 19)%nat.

(** The cell of the board array that a point is kept in; the array has 361. *)
Definition cell_of (s : nat * nat) (p : nat * nat) : nat := (fst p * fst s + snd p)%nat.

(** [areach s b w g]: a game of a release build on a board of size [s] that the
    public API can produce from [Game::new], [b] black and [w] white stones, at
    most 65535 of them, having been put on it.  Stones are put in any of the 361
    cells of the array, on the board or not, if the cell is empty; moves need not
    be checked. *)
Inductive areach (s : nat * nat) : nat -> nat -> game -> Prop :=
| ar_new sz r g : board_size s -> size_of sz = s -> game_new sz r = Ok g -> areach s 0 0 g
| ar_play b w g x y g' : areach s b w g -> (cell_of s (x, y) < 361)%nat -> pos_of (gm_goban g) (x, y) = None ->
    (N.of_nat (b + w) < 65535)%N -> play false g (MPlay x y) = Ok g' ->
    areach s (fst (bump_count (gm_turn g) (b, w))) (snd (bump_count (gm_turn g) (b, w))) g'
| ar_pass b w g g' : areach s b w g -> play false g MPass = Ok g' -> areach s b w g'
| ar_resign b w g c g' : areach s b w g -> play false g (MResign c) = Ok g' -> areach s b w g'
| ar_resume b w g : areach s b w g -> areach s b w (resume g)
| ar_komi b w g k : areach s b w g -> areach s b w (set_komi g k)
| ar_handicap b w g pts g' : areach s b w g -> NoDup (List.map (cell_of s) pts) ->
    (forall p, p ∈ pts -> (cell_of s p < 361)%nat /\ pos_of (gm_goban g) p = None) ->
    (N.of_nat (b + w + length pts) <= 65535)%N ->
    put_handicap false g pts = Ok g' -> areach s (b + length pts) w g'.

(** a call that the rules guard, with a point that has a cell *)
Definition aguarded (s : nat * nat) (o : op) : Prop :=
  match o with
  | OTry (MPlay x y) => (cell_of s (x, y) < 361)%nat
  | OTry _ | OResume | OKomi _ => True
  | OPlay _ | OHandicap _ => False
  end.

(** Checked calls to a new game on a board of size [s] are answered, whatever the
    rules: no panic, no endless loop. *)
Definition answers (dbg : bool) (s : nat * nat) : Prop :=
  forall sz r ops, size_of sz = s -> (forall o, o ∈ ops -> rguarded s o) -> (N.of_nat (all_stones ops) <= 65535)%N ->
  exists g g' l, game_new sz r = Ok g /\ calls dbg g ops = Ok (g', l).

(** stones of colour [c] in a list of cells *)
Definition count_of (c : color) (v : list (option color)) : nat :=
  length (List.filter (fun x => mcolor_eqb x (Some c)) v).
