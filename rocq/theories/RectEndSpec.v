(** Runs of legal games on boards with [fst s] rows and [snd s] columns, like
    [EndSpec.v]. *)
From Verif Require Export Observe RectVerdictSpec RectReach.

(** the move recreates a recorded position *)
Definition rrepeats_history (s : nat * nat) (g : game) (p : coord) : Prop :=
  exists R y, rgo_move false s (position g) p (gm_turn g) R /\ y ∈ gm_history g /\ rsame_pos s R (pos_of y).

(** [rstone_run dbg s k g g']: calls of [try_play], [resume] and [set_komi] lead
    from [g] to [g'], [k] stone moves on the board being accepted *)
Inductive rstone_run (dbg : bool) (s : size_t) : nat -> game -> game -> Prop :=
| rr_end g : rstone_run dbg s 0 g g
| rr_stone k g x y g1 g2 : ron s (x, y) -> try_play dbg g (MPlay x y) = Ok (g1, Accepted) ->
    rstone_run dbg s k g1 g2 -> rstone_run dbg s (S k) g g2
| rr_refused k g m e g1 g2 : try_play dbg g m = Ok (g1, Refused e) -> rstone_run dbg s k g1 g2 -> rstone_run dbg s k g g2
| rr_pass k g g1 g2 : try_play dbg g MPass = Ok (g1, Accepted) -> rstone_run dbg s k g1 g2 -> rstone_run dbg s k g g2
| rr_resign k g c g1 g2 : try_play dbg g (MResign c) = Ok (g1, Accepted) -> rstone_run dbg s k g1 g2 -> rstone_run dbg s k g g2
| rr_resume k g g2 : rstone_run dbg s k (resume g) g2 -> rstone_run dbg s k g g2
| rr_komi k g x g2 : rstone_run dbg s k (set_komi g x) g2 -> rstone_run dbg s k g g2.

(** stones on the board and passes only *)
Definition rplain (s : nat * nat) (m : move) : Prop :=
  match m with MPlay x y => ron s (x, y) | MPass => True | MResign _ => False end.
