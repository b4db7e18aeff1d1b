(** How C124 speaks about boards that are not square. *)
From Verif Require Import Spec Observe RectSpec UnwindSpec.

(** the board of the game has been noted among the earlier boards: added at the
    end unless the same position is there already *)
Definition rnoted (n : nat * nat) (g gl : game) : Prop :=
  let known := exists x, x ∈ gm_history g /\ rsame_pos n (position g) (pos_of x) in
  known /\ gm_history gl = gm_history g \/ ~ known /\ gm_history gl = gm_history g ++ [gm_goban g].
