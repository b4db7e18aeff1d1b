(** The state in which a built or imported game begins, in the vocabulary of the
    abstract game of [TableSpec.v]. *)
From stdpp Require Import strings.
From Verif Require Export TableSpec SgfSpec.

(** the table described by a builder, before its moves *)
Record opening (n : nat) (bl : builder) (t : table) : Prop := mkOpening {
  op_pos : forall p c, on n p -> t_pos t p = Some c <-> (p, c) ∈ setup_stones bl;
  op_turn : t_turn t =
    match b_turn bl with
    | Some c => c
    | None => if decide (default (N.of_nat (length (b_handicap_points bl))) (b_handicap bl) = 0%N) then Black else White
    end;
  op_passes : t_passes t = 0%nat;
  op_outcome : t_outcome t = b_outcome bl;
  op_prisoners : t_prisoners t = (0, 0)%N;
  op_ko : t_ko t = None;
  op_seen : t_seen t = []
}.

(** size, rules and set-up stones of a record *)
Definition record_size (root : sgf_node) : N * N := default (19, 19)%N (last_said said_size root).
Definition record_rule (root : sgf_node) : rule :=
  match last_said said_rule root with Some SJapanese => JAPANESE | _ => CHINESE end.
Definition record_stones (root : sgf_node) : list stone :=
  List.map (fun a : color * (nat * nat) => (sgf_point (fst (snd a)) (snd (snd a)), fst a)) (omap said_add root).

(** the table described by the root of a record *)
Record record_opening (n : nat) (root : sgf_node) (t : table) : Prop := mkRecordOpening {
  ro_pos : forall p c, on n p -> t_pos t p = Some c <-> (p, c) ∈ record_stones root;
  ro_turn : t_turn t = first_player root;
  ro_passes : t_passes t = 0%nat;
  ro_outcome : t_outcome t = option_map said_outcome (last_said said_result root);
  ro_prisoners : t_prisoners t = (0, 0)%N;
  ro_ko : t_ko t = None;
  ro_seen : t_seen t = []
}.
(** the moves of a record *)
Definition record_moves (rest : list sgf_node) : list move :=
  List.map (fun m => sgf_move (snd m)) (omap first_move rest).

(** the calls of a builder before [build] *)
Inductive setting :=
| SMoves (l : list move) | SOutcome (e : endgame) | SPoints (l : list coord) | SHandicap (h : N) | SSize (s : size_t)
| SKomi (k : f32) | STurn (c : color) | SRule (r : rule) | SStone (s : stone).
Definition set_to (b : builder) (x : setting) : builder :=
  match x with
  | SMoves l => set_moves b l | SOutcome e => set_outcome b e | SPoints l => set_put_handicap b l | SHandicap h => set_handicap b h
  | SSize s => set_size b s | SKomi k => set_bkomi b k | STurn c => set_turn b c | SRule r => set_rule b r | SStone s => add_stone b s
  end.
(** the last of the answers of [f] *)
Definition last_of {A} (f : setting -> option A) (l : list setting) : option A := last (omap f l).

Definition said_everything (b : builder) (l : list setting) : Prop :=
  b_size b = default (19, 19)%nat (last_of (fun x => match x with SSize s => Some s | _ => None end) l) /\
  b_rule b = default CHINESE (last_of (fun x => match x with SRule r => Some r | _ => None end) l) /\
  b_komi b = last_of (fun x => match x with SKomi k => Some k | _ => None end) l /\
  b_handicap b = last_of (fun x => match x with SHandicap h => Some h | _ => None end) l /\
  b_handicap_points b = default [] (last_of (fun x => match x with SPoints p => Some p | _ => None end) l) /\
  b_turn b = last_of (fun x => match x with STurn c => Some c | _ => None end) l /\
  b_moves b = default [] (last_of (fun x => match x with SMoves m => Some m | _ => None end) l) /\
  b_outcome b = last_of (fun x => match x with SOutcome e => Some e | _ => None end) l /\
  b_setup b = omap (fun x => match x with SStone s => Some s | _ => None end) l.
