(** Model of src/rules/sgf_bridge.rs, on the node list that the external crate
    sgf-parser (not modelled) delivers. *)
From Verif Require Export Builder.
From Coq Require Import String.
Local Notation length := Datatypes.length.

(** The parts of sgf-parser's data types that src/rules/sgf_bridge.rs:22-128
    inspects; colours are those of the model. *)
Inductive sgf_action := SMove (col line : nat) | SPass.
(** [Outcome] of sgf-parser, as matched in src/rules/sgf_bridge.rs:109-119 *)
Inductive sgf_outcome :=
| SWinnerByResign (c : color) | SWinnerByForfeit (c : color)
| SWinnerByPoints (c : color) (p : f32) | SWinnerByTime (c : color) | SDraw.
(** [RuleSet] of sgf-parser, as matched in src/rules/sgf_bridge.rs:90-98; every other rule set is [SOtherRule] *)
Inductive sgf_ruleset := SJapanese | SChinese | SOtherRule.
(** [SgfToken] of sgf-parser, as matched in src/rules/sgf_bridge.rs:22-88; every token not matched there is [TOther] *)
Inductive sgf_token :=
| TAdd (c : color) (x y : nat)
| TMove (c : color) (a : sgf_action)
| TGame (is_go : bool)
| TRule (r : sgf_ruleset)
| TResult (o : sgf_outcome)
| TKomi (k : f32)
| TSize (x y : N)
| THandicap (h : N)
| TUnknown (key value : String.string)
| TOther.
(** [GameNode] of sgf-parser: its tokens, src/rules/sgf_bridge.rs:22-88 *)
Definition sgf_node := list sgf_token.

(** src/rules/sgf_bridge.rs:90-98 [From<RuleSet> for Rule] *)
Definition rule_of_sgf (r : sgf_ruleset) : res rule :=
  match r with
  | SJapanese => Ok JAPANESE
  | SChinese => Ok CHINESE
  | SOtherRule => Panic
  end.

(** src/rules/sgf_bridge.rs:109-119 [From<Outcome> for EndGame] *)
Definition outcome_of_sgf (o : sgf_outcome) : endgame :=
  match o with
  | SWinnerByResign c => WinnerByResign c
  | SWinnerByForfeit c => WinnerByForfeit c
  | SWinnerByPoints c p => WinnerByScore c p
  | SWinnerByTime c => WinnerByTime c
  | SDraw => Draw
  end.

(** src/rules/sgf_bridge.rs:121-128 [From<Action> for Move] *)
Definition move_of_sgf (dbg : bool) (a : sgf_action) : res move :=
  match a with
  | SMove col line =>
      let! r := u8_sub dbg line 1 in
      let! c := u8_sub dbg col 1 in
      Ok (MPlay r c)
  | SPass => Ok MPass
  end.

(** src/rules/sgf_bridge.rs:61-75: the [PL] property, among the unknown tokens
    of the root node *)
Definition sgf_player (node : sgf_node) (b : builder) : res builder :=
  foldM (fun b t =>
           match t with
           | TUnknown key value =>
               if String.eqb key "PL"%string then
                 if String.eqb value "B"%string then Ok (set_turn b Black)
                 else if String.eqb value "W"%string then Ok (set_turn b White)
                 else Panic
               else Ok b
           | _ => Ok b
           end) node b.

(** src/rules/sgf_bridge.rs:26-60: one token of the root node *)
Definition sgf_root_token (dbg : bool) (b : builder) (t : sgf_token) : res builder :=
  match t with
  | TKomi k => Ok (set_bkomi b k)
  | TSize x y => Ok (set_size b (N.to_nat (x mod 256), N.to_nat (y mod 256)))
  | TResult o => Ok (set_outcome b (outcome_of_sgf o))
  | TAdd c x y =>
      let! r := u8_sub dbg y 1 in
      let! cl := u8_sub dbg x 1 in
      Ok (add_stone b ((r, cl), c))
  | TRule r => let! r' := rule_of_sgf r in Ok (set_rule b r')
  | THandicap h => Ok (set_handicap b h)
  | TGame is_go => let! _ := assert_ is_go in Ok b
  | _ => Ok b
  end.

(** src/rules/sgf_bridge.rs:22-77: the root node *)
Definition sgf_root (dbg : bool) (node : sgf_node) (b : builder) : res builder :=
  foldM (fun b t => let! b := sgf_root_token dbg b t in sgf_player node b) node b.

(** src/rules/sgf_bridge.rs:78-83: a later node; only its first token counts *)
Definition sgf_later (dbg : bool) (acc : list move) (node : sgf_node) : res (list move) :=
  match node with
  | TMove _ a :: _ => let! m := move_of_sgf dbg a in Ok (acc ++ [m])
  | _ => Ok acc
  end.

(** src/rules/sgf_bridge.rs:12-87 [from_sgf] after a successful parse *)
Definition from_sgf_nodes (dbg : bool) (nodes : list sgf_node) : res game :=
  let! '(b, moves) :=
    match nodes with
    | [] => Ok (builder_default, [])
    | root :: rest =>
        let! b := sgf_root dbg root builder_default in
        let! ms := foldM (sgf_later dbg) rest [] in
        Ok (b, ms)
    end in
  snd (build dbg (set_moves b moves)).
