(** The state in which a built or imported game begins, as in [BuildSpec.v], on a
    board with [fst s] rows and [snd s] columns. *)
From stdpp Require Import strings.
From Verif Require Export BuildSpec RectTableSpec.

(** the table described by a builder, before its moves *)
Record ropening (s : nat * nat) (bl : builder) (t : table) : Prop := rmkOpening {
  rop_pos : forall p c, ron s p -> t_pos t p = Some c <-> (p, c) ∈ setup_stones bl;
  rop_turn : t_turn t =
    match b_turn bl with
    | Some c => c
    | None => if decide (default (N.of_nat (length (b_handicap_points bl))) (b_handicap bl) = 0%N) then Black else White
    end;
  rop_passes : t_passes t = 0%nat;
  rop_outcome : t_outcome t = b_outcome bl;
  rop_prisoners : t_prisoners t = (0, 0)%N;
  rop_ko : t_ko t = None;
  rop_seen : t_seen t = []
}.

(** the table described by the root of a record *)
Record rrecord_opening (s : nat * nat) (root : sgf_node) (t : table) : Prop := rmkRecordOpening {
  rro_pos : forall p c, ron s p -> t_pos t p = Some c <-> (p, c) ∈ record_stones root;
  rro_turn : t_turn t = first_player root;
  rro_passes : t_passes t = 0%nat;
  rro_outcome : t_outcome t = option_map said_outcome (last_said said_result root);
  rro_prisoners : t_prisoners t = (0, 0)%N;
  rro_ko : t_ko t = None;
  rro_seen : t_seen t = []
}.
