(** The simulations of the tree search on a board with [fst s] rows and [snd s] columns. *)
From stdpp Require Import relations.
From Verif Require Export RectPlayoutSpec SimulationSpec.

(** One move inside a simulation: a move offered, carried out unchecked, or a move of
    a random playout in the upper square. *)
Inductive rsimulation_step (dbg : bool) (s : nat * nat) (g g' : game) : Prop :=
| rstep_down ms m : legals_moves dbg g = Ok ms -> m ∈ ms -> play dbg g m = Ok g' -> rsimulation_step dbg s g g'
| rstep_out : rplayout_step dbg s g g' -> rsimulation_step dbg s g g'.
