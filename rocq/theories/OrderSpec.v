(** Stones put on the board one after the other. *)
From Verif Require Export PastSpec AreaSpec.

(** the stones of a list of moves when [c] begins and nobody passes; [None] if a
    move is a pass or a resignation *)
Fixpoint laid_stones (c : color) (ms : list move) : option (list stone) :=
  match ms with
  | [] => Some []
  | MPlay x y :: ms => match laid_stones (opp c) ms with Some l => Some (((x, y), c) :: l) | None => None end
  | _ => None
  end.
