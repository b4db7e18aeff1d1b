(** How C124 speaks about the game that a caller holds after a caught panic. *)
From Verif Require Import Spec Observe.

(** everything but the board and the list of earlier boards is as before *)
Definition rest_kept (g gl : game) : Prop :=
  gm_turn gl = gm_turn g /\ gm_passes gl = gm_passes g /\ gm_prisoners gl = gm_prisoners g /\
  gm_outcome gl = gm_outcome g /\ gm_rule gl = gm_rule g /\ gm_handicap gl = gm_handicap g /\
  gm_ko_point gl = gm_ko_point g.

(** the board of the game has been noted among the earlier boards: added at the
    end unless the same position is there already *)
Definition noted (n : nat) (g gl : game) : Prop :=
  let known := exists x, x ∈ gm_history g /\ same_pos n (position g) (pos_of x) in
  known /\ gm_history gl = gm_history g \/ ~ known /\ gm_history gl = gm_history g ++ [gm_goban g].

(** one more stone of a colour in a pair of counts *)
Definition one_more (c : color) (s : nat * nat) : nat * nat :=
  match c with Black => (S (fst s), snd s) | White => (fst s, S (snd s)) end.

(** the point is not on the board of the goban *)
Definition outside (g : goban) (p : coord) : Prop := ~ (fst p < fst (gsize g) /\ snd p < snd (gsize g))%nat.

(** moves are tried one after the other; the verdicts and the game at the end *)
Fixpoint attempts (dbg : bool) (g : game) (ms : list move) : res (list verdict * game) :=
  match ms with
  | [] => Ok ([], g)
  | m :: t =>
      let! '(g', v) := try_play dbg g m in
      let! '(vs, g'') := attempts dbg g' t in
      Ok (v :: vs, g'')
  end.
