(** What a player can bring about by good play. *)
From Verif Require Export Observe RectEndSpec.

(** [m] is a pass or a stone on the board that [try_play] accepts, leading to [g'] *)
Definition may_play (dbg : bool) (s : nat * nat) (g : game) (m : move) (g' : game) : Prop :=
  rplain s m /\ try_play dbg g m = Ok (g', Accepted).

(** [forces dbg s c P g]: from [g] on, whatever the opponent does, [c] can bring the
    game to an end at which [P] holds.  Both players pass or put stones until the
    game is over; nobody resigns, and a move that panics cannot be chosen. *)
Inductive forces (dbg : bool) (s : nat * nat) (c : color) (P : game -> Prop) : game -> Prop :=
| fo_over g : is_over g = true -> P g -> forces dbg s c P g
| fo_own g m g' : is_over g = false -> gm_turn g = c -> may_play dbg s g m g' -> forces dbg s c P g' -> forces dbg s c P g
| fo_other g : is_over g = false -> gm_turn g = opp c -> (forall m g', may_play dbg s g m g' -> forces dbg s c P g') -> forces dbg s c P g.

(** [outcome] gives the game to [c], whatever the iteration order of the hash sets *)
Definition won (dbg : bool) (c : color) (g : game) : Prop :=
  forall order, (forall l, order l ≡ₚ l) -> exists e, outcome order dbg g = Ok (Some e) /\ endgame_winner e = Some c.

(** [outcome] says that [c] has won or that the game is drawn *)
Definition not_lost (dbg : bool) (c : color) (g : game) : Prop :=
  forall order, (forall l, order l ≡ₚ l) -> exists e, outcome order dbg g = Ok (Some e) /\ endgame_winner e <> Some (opp c).

(** as many stones as can be put on the boards of one game, whatever the rule *)
Definition STONES_EVER : N := 361 * 65536.
