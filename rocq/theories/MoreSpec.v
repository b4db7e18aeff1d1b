(** The grid of a printed board: in which directions the lines of a symbol run. *)
From Verif Require Export Goban.

(** up, down, left, right; [None] for a stone and for the end of a line *)
Definition arms (x : glyph) : option (bool * bool * bool * bool) :=
  match x with
  | BlackDisc | WhiteDisc | NewLine => None
  | TopLeft => Some (false, true, false, true)
  | TopRight => Some (false, true, true, false)
  | BottomLeft => Some (true, false, false, true)
  | BottomRight => Some (true, false, true, false)
  | TopEdge => Some (false, true, true, true)
  | BottomEdge => Some (true, false, true, true)
  | LeftEdge => Some (true, true, false, true)
  | RightEdge => Some (true, true, true, false)
  | Cross => Some (true, true, true, true)
  end.
