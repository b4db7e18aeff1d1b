(** A stone played on an occupied point, stated on positions. *)
From Verif Require Export Observe Reach.

(** suicide is allowed, and every neighbour of [p] on the board is a stone of the
    opponent of the side to move *)
Definition swallowed (n : nat) (g : game) (p : coord) : Prop :=
  flag_contains (flag_illegal (gm_rule g)) SUICIDE = false /\
  forall q, on n q -> adj p q -> position g q = Some (opp (gm_turn g)).
