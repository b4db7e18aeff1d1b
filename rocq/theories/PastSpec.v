(** Games that agree now, whatever was played before. *)
From Verif Require Export RectSymSpec ValueSpec.

(** the position, the side to move, the passes, the outcome, the ko point, the
    prisoners and the rule are the same; nothing is said about the histories, the
    numbering of the groups and their stone lists *)
Record same_now (n : nat * nat) (g h : game) : Prop := mkNow {
  now_pos : forall p, ron n p -> position g p = position h p;
  now_turn : gm_turn g = gm_turn h;
  now_passes : gm_passes g = gm_passes h;
  now_outcome : gm_outcome g = gm_outcome h;
  now_ko : gm_ko_point g = gm_ko_point h;
  now_prisoners : gm_prisoners g = gm_prisoners h;
  now_rule : gm_rule g = gm_rule h
}.
