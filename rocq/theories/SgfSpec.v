(** What an SGF record says, read off its node list without the bridge's code. *)
From stdpp Require Import strings.
From Verif Require Export Reach Sgf.

Local Notation length := Datatypes.length.

(** the last answer a function gives on the tokens of a node *)
Definition last_said {A} (f : sgf_token -> option A) (node : sgf_node) : option A := last (omap f node).

Definition said_komi (t : sgf_token) : option f32 := match t with TKomi k => Some k | _ => None end.
Definition said_size (t : sgf_token) : option (N * N) := match t with TSize x y => Some (x, y) | _ => None end.
Definition said_result (t : sgf_token) : option sgf_outcome := match t with TResult o => Some o | _ => None end.
Definition said_rule (t : sgf_token) : option sgf_ruleset := match t with TRule r => Some r | _ => None end.
Definition said_handicap (t : sgf_token) : option N := match t with THandicap h => Some h | _ => None end.
Definition said_player (t : sgf_token) : option String.string :=
  match t with TUnknown k v => if decide (k = "PL"%string) then Some v else None | _ => None end.
Definition said_add (t : sgf_token) : option (color * (nat * nat)) := match t with TAdd c x y => Some (c, (x, y)) | _ => None end.

(** SGF counts columns and rows from one; 0 would wrap round to 255 *)
Definition from_one (a : nat) : nat := if decide (a = 0%nat) then 255%nat else (a - 1)%nat.
Definition sgf_point (col line : nat) : coord := (from_one line, from_one col).

(** the move a later node records, if its first token is a move *)
Definition first_move (node : sgf_node) : option (color * sgf_action) :=
  match node with TMove c a :: _ => Some (c, a) | _ => None end.
(** all the moves that a node records *)
Definition node_moves (node : sgf_node) : list (color * sgf_action) :=
  omap (fun t => match t with TMove c a => Some (c, a) | _ => None end) node.

Definition sgf_move (a : sgf_action) : move :=
  match a with SMove col line => let '(r, c) := sgf_point col line in MPlay r c | SPass => MPass end.

(** the record keeps to what the bridge supports: Go, Japanese or Chinese rules,
    players B or W and, in debug builds, columns and rows from 1 *)
Definition root_token_ok (dbg : bool) (t : sgf_token) : Prop :=
  match t with
  | TGame is_go => is_go = true
  | TRule r => r <> SOtherRule
  | TAdd _ x y => dbg = true -> (1 <= x /\ 1 <= y)%nat
  | TUnknown k v => k = "PL"%string -> v = "B"%string \/ v = "W"%string
  | _ => True
  end.
Definition action_ok (dbg : bool) (a : sgf_action) : Prop :=
  match a with SMove col line => dbg = true -> (1 <= col /\ 1 <= line)%nat | SPass => True end.
Definition supported (dbg : bool) (root : sgf_node) (rest : list sgf_node) : Prop :=
  (forall t, t ∈ root -> root_token_ok dbg t) /\
  (forall node c a, node ∈ rest -> first_move node = Some (c, a) -> action_ok dbg a).

Definition said_outcome (o : sgf_outcome) : endgame :=
  match o with
  | SWinnerByResign c => WinnerByResign c
  | SWinnerByForfeit c => WinnerByForfeit c
  | SWinnerByPoints c p => WinnerByScore c p
  | SWinnerByTime c => WinnerByTime c
  | SDraw => Draw
  end.

(** the builder that the record describes *)
Definition record_builder (root : sgf_node) (rest : list sgf_node) : builder :=
  mkBuilder
    (match last_said said_size root with
     | Some (x, y) => (N.to_nat (x mod 256), N.to_nat (y mod 256)) | None => (19, 19)%nat end)
    (match last_said said_rule root with Some SJapanese => JAPANESE | _ => CHINESE end)
    (last_said said_komi root)
    (last_said said_handicap root)
    []
    (match last_said said_player root with
     | Some v => Some (if decide (v = "B"%string) then Black else White) | None => None end)
    (List.map (fun m => sgf_move (snd m)) (omap first_move rest))
    (option_map said_outcome (last_said said_result root))
    (List.map (fun a : color * (nat * nat) => (sgf_point (fst (snd a)) (snd (snd a)), fst a)) (omap said_add root)).

(** colours alternate, starting with [c] *)
Fixpoint alternate (c : color) (l : list color) : Prop :=
  match l with [] => True | d :: l => d = c /\ alternate (opp c) l end.

(** who moves first: PL if given, else White if there is a handicap, else Black *)
Definition first_player (root : sgf_node) : color :=
  match last_said said_player root with
  | Some v => if decide (v = "B"%string) then Black else White
  | None => match last_said said_handicap root with
            | Some h => if decide (h = 0%N) then Black else White
            | None => Black
            end
  end.

(** the player of move number [k] when [c] begins *)
Fixpoint nth_turn (c : color) (k : nat) : color := match k with O => c | S k => opp (nth_turn c k) end.
