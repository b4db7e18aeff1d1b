(** Symmetries of a board with [fst n] rows and [snd n] columns; [SymSpec.v] for
    boards of any size. *)
From Verif Require Export SymSpec RectSpec.

(** the four symmetries of the rectangle *)
Definition rectangle_symmetry (n : nat * nat) (k : nat) (p : coord) : coord :=
  let (x, y) := p in
  match k with
  | 0 => (x, y) | 1 => (x, snd n - 1 - y) | 2 => (fst n - 1 - x, y) | _ => (fst n - 1 - x, snd n - 1 - y)
  end%nat.

(** [σ] is a bijection of the points of the board of size [n] that preserves
    adjacency, [τ] its inverse; [γ] keeps or swaps the two colours. *)
Record rboard_sym (n : nat * nat) (σ τ : coord -> coord) (γ : color -> color) : Prop := rmkSymmetry {
  rsy_on : forall p, ron n p -> ron n (σ p);
  rsy_on' : forall p, ron n p -> ron n (τ p);
  rsy_left : forall p, ron n p -> τ (σ p) = p;
  rsy_right : forall p, ron n p -> σ (τ p) = p;
  rsy_adj : forall p q, ron n p -> ron n q -> adj p q -> adj (σ p) (σ q);
  rsy_adj' : forall p q, ron n p -> ron n q -> adj p q -> adj (τ p) (τ q);
  rsy_color : forall c, γ (γ c) = c
}.

(** [Q] is the image of the position [P] *)
Definition rimage (n : nat * nat) (σ : coord -> coord) (γ : color -> color) (P Q : pos) : Prop :=
  forall p, ron n p -> Q (σ p) = option_map γ (P p).

(** [h] is the image of the game [g], as far as moves are concerned: komi,
    scoring and handicap count are left out. *)
Record rimage_game (n : nat * nat) (σ : coord -> coord) (γ : color -> color) (g h : game) : Prop := rmkImage {
  rim_pos : rimage n σ γ (position g) (position h);
  rim_turn : gm_turn h = γ (gm_turn g);
  rim_passes : gm_passes h = gm_passes g;
  rim_outcome : gm_outcome h = option_map (image_end γ) (gm_outcome g);
  rim_ko : gm_ko_point h = option_map σ (gm_ko_point g);
  rim_rule : flag_illegal (gm_rule h) = flag_illegal (gm_rule g)
}.

(** the histories correspond as well *)
Definition rimage_history (n : nat * nat) (σ : coord -> coord) (γ : color -> color) (g h : game) : Prop :=
  Forall2 (fun a b => rimage n σ γ (pos_of a) (pos_of b)) (gm_history g) (gm_history h).

(** Two games that look the same: positions, side to move, passes, outcome, ko
    point, prisoners, rule, and the positions of the history.  The numbering of
    the groups, their stone lists and the handicap count may differ. *)
Record rlook_alike (n : nat * nat) (g h : game) : Prop := rmkAlike {
  ral_pos : rsame_pos n (position g) (position h);
  ral_turn : gm_turn g = gm_turn h;
  ral_passes : gm_passes g = gm_passes h;
  ral_outcome : gm_outcome g = gm_outcome h;
  ral_ko : gm_ko_point g = gm_ko_point h;
  ral_prisoners : gm_prisoners g = gm_prisoners h;
  ral_rule : gm_rule g = gm_rule h;
  ral_history : Forall2 (fun a b => rsame_pos n (pos_of a) (pos_of b)) (gm_history g) (gm_history h)
}.
