(** Random playouts and the play of the tree search as relations between games. *)
From stdpp Require Import relations.
From Verif Require Export Observe DeadStones.

(** One move of a random playout: a stone on a point where it is accepted and
    which has not the shape of an eye of the player, or a pass if there is no such point. *)
Inductive playout_step (dbg : bool) (n : nat) (g g' : game) : Prop :=
| step_stone x y : is_over g = false -> on n (x, y) -> try_play dbg g (MPlay x y) = Ok (g', Accepted) ->
    ~ eye_shape n (position g) (gm_turn g) (x, y) -> playout_step dbg n g g'
| step_pass l : is_over g = false -> legals dbg g = Ok l ->
    (forall p, p ∈ l -> eye_shape n (position g) (gm_turn g) p) ->
    try_play dbg g MPass = Ok (g', Accepted) -> playout_step dbg n g g'.

(** One move of the tree search: one of the moves it is offered. *)
Inductive search_step (dbg : bool) (n : nat) (g g' : game) : Prop :=
| step_search ms m : is_over g = false -> legals_moves dbg g = Ok ms -> m ∈ ms ->
    try_play dbg g m = Ok (g', Accepted) -> search_step dbg n g g'.

(** What is assumed of the tree search, asked about games met in its play from [g]: it
    answers with a move offered, or panics. *)
Definition answers (dbg : bool) (n : nat) (search : nat -> game -> list move -> res move) (g : game) : Prop :=
  forall i h ms, rtc (search_step dbg n) g h -> is_over h = false -> legals_moves dbg h = Ok ms ->
  search i h ms = Panic \/ exists m, search i h ms = Ok m /\ m ∈ ms.

(** Why the play of the tree search stops with a panic: no group number is left for
    a new stone, or the search about a game that is not over panicked. *)
Definition gave_up (dbg : bool) (search : nat -> game -> list move -> res move) (g : game) : Prop :=
  no_slot_left g \/
  exists i ms, is_over g = false /\ legals_moves dbg g = Ok ms /\ search i g ms = Panic.

(** One move inside a simulation of the tree search: a move offered to it, which is
    then carried out unchecked, or a move of a random playout. *)
Inductive simulation_step (dbg : bool) (n : nat) (g g' : game) : Prop :=
| step_down ms m : legals_moves dbg g = Ok ms -> m ∈ ms -> play dbg g m = Ok g' -> simulation_step dbg n g g'
| step_out : playout_step dbg n g g' -> simulation_step dbg n g g'.

(** One game among those a simulation passes through in which it may have to stop: no
    group number is left, or a million stones of one colour have been captured. *)
Definition worn_out (g : game) : Prop :=
  no_slot_left g \/ (1000000 <= fst (gm_prisoners g))%N \/ (1000000 <= snd (gm_prisoners g))%N.
