(** Random playouts and the play of the tree search on a board with [fst s] rows and
    [snd s] columns, as relations between games; [PlayoutSpec.v] without the
    restriction to squares. *)
From stdpp Require Import relations.
From Verif Require Export Observe DeadStones RectVerdictSpec.

Global Instance move_eq_decision : EqDecision move.
Proof. solve_decision. Defined.

(** [p] lies in the square that the first [snd s] rows form *)
Definition in_square (s : nat * nat) (p : coord) : Prop := (fst p < snd s /\ snd p < snd s)%nat.

(** One move of a random playout: a stone in the square, where it is accepted, on a
    point that has not the shape of an eye of the player, or a pass if no
    legal point listed is of this kind. *)
Inductive rplayout_step (dbg : bool) (s : nat * nat) (g g' : game) : Prop :=
| rstep_stone x y : is_over g = false -> in_square s (x, y) -> try_play dbg g (MPlay x y) = Ok (g', Accepted) ->
    ~ reye_shape s (position g) (gm_turn g) (x, y) -> rplayout_step dbg s g g'
| rstep_pass l : is_over g = false -> legals dbg g = Ok l ->
    (forall p, p ∈ l -> reye_shape s (position g) (gm_turn g) p) ->
    try_play dbg g MPass = Ok (g', Accepted) -> rplayout_step dbg s g g'.

(** One move of the tree search: one of the moves it is offered. *)
Inductive offered_step (dbg : bool) (g g' : game) : Prop :=
| step_offered ms m : is_over g = false -> legals_moves dbg g = Ok ms -> m ∈ ms ->
    try_play dbg g m = Ok (g', Accepted) -> offered_step dbg g g'.

(** What is assumed of the tree search, asked about games met in its play from [g]: it
    answers with a move offered, or panics. *)
Definition answers_offered (dbg : bool) (search : nat -> game -> list move -> res move) (g : game) : Prop :=
  forall i h ms, rtc (offered_step dbg) g h -> is_over h = false -> legals_moves dbg h = Ok ms ->
  search i h ms = Panic \/ exists m, search i h ms = Ok m /\ m ∈ ms.

(** a point next to the group with number [i] *)
Definition rnear_group (s : nat * nat) (g : goban) (i : nat) (p : coord) : Prop :=
  exists q, ron s q /\ adj p q /\ group_no g q = Some i.

(** [p] has the shape of an eye of either colour *)
Definition rsome_eye (s : nat * nat) (g : game) (p : coord) : Prop :=
  reye_shape s (position g) Black p \/ reye_shape s (position g) White p.
