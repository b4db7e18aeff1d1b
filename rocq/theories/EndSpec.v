(** Runs of a game with the number of stones put on the board. *)
From Verif Require Export Observe.

(** [stone_run dbg n k g g']: calls of [try_play], [resume] and [set_komi] lead from
    [g] to [g'], [k] stone moves on the n x n board being accepted. *)
Inductive stone_run (dbg : bool) (n : nat) : nat -> game -> game -> Prop :=
| sr_end g : stone_run dbg n 0 g g
| sr_stone k g x y g1 g2 : on n (x, y) -> try_play dbg g (MPlay x y) = Ok (g1, Accepted) ->
    stone_run dbg n k g1 g2 -> stone_run dbg n (S k) g g2
| sr_refused k g m e g1 g2 : try_play dbg g m = Ok (g1, Refused e) -> stone_run dbg n k g1 g2 -> stone_run dbg n k g g2
| sr_pass k g g1 g2 : try_play dbg g MPass = Ok (g1, Accepted) -> stone_run dbg n k g1 g2 -> stone_run dbg n k g g2
| sr_resign k g c g1 g2 : try_play dbg g (MResign c) = Ok (g1, Accepted) -> stone_run dbg n k g1 g2 -> stone_run dbg n k g g2
| sr_resume k g g2 : stone_run dbg n k (resume g) g2 -> stone_run dbg n k g g2
| sr_komi k g x g2 : stone_run dbg n k (set_komi g x) g2 -> stone_run dbg n k g g2.
