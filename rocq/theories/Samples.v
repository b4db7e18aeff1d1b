(** Concrete games that meet the hypotheses of the theorems.  Each is computed by
    running the model on a list of moves. *)
From Verif Require Export Ops.

(** on the board and empty *)
Definition free (n : nat) (g : game) (p : coord) : bool :=
  (fst p <? n)%nat && (snd p <? n)%nat &&
  match get_color (gm_goban g) p with Ok None => true | _ => false end.

(** unchecked moves, each stone on an empty point of the board *)
Fixpoint plays (dbg : bool) (n : nat) (g : game) (l : list move) : option game :=
  match l with
  | [] => Some g
  | m :: t =>
      if match m with MPlay x y => free n g (x, y) | _ => true end
      then match play dbg g m with Ok g' => plays dbg n g' t | _ => None end
      else None
  end.

(** moves accepted by [try_play] *)
Fixpoint tries (dbg : bool) (n : nat) (g : game) (l : list move) : option game :=
  match l with
  | [] => Some g
  | m :: t =>
      if match m with MPlay x y => (x <? n)%nat && (y <? n)%nat | _ => true end
      then match try_play dbg g m with Ok (g', Accepted) => tries dbg n g' t | _ => None end
      else None
  end.

(** a game on the n x n board, started fresh *)
Definition played (dbg : bool) (n : nat) (r : rule) (l : list move) : option game :=
  match game_new (Custom (N.of_nat n) (N.of_nat n)) r with Ok g => plays dbg n g l | _ => None end.
Definition tried (dbg : bool) (n : nat) (r : rule) (l : list move) : option game :=
  match game_new (Custom (N.of_nat n) (N.of_nat n)) r with Ok g => tries dbg n g l | _ => None end.

(** Black surrounds the corner stone of White: one capture *)
Definition corner_moves : list move := [MPlay 0 1; MPlay 0 0; MPlay 1 0].

(** the shape of a ko; the last move captures (1,1) *)
Definition ko_moves : list move :=
  [MPlay 0 1; MPlay 0 2; MPlay 1 0; MPlay 1 3; MPlay 2 1; MPlay 2 2; MPlay 3 0; MPlay 1 1; MPlay 1 2].

(** Japanese rules without any prohibition *)
Definition FREE : rule := mkRule (r_komi JAPANESE) 0 (flag_score JAPANESE).

Definition sat {A} (o : option A) (f : A -> bool) : bool := match o with Some x => f x | None => false end.
