(** Symmetries of the board and of the colours, and games that correspond under them. *)
From Verif Require Export Observe Ops.

(** [σ] is a bijection of the points of the n x n board that preserves
    adjacency, [τ] its inverse; [γ] keeps or swaps the two colours. *)
Record board_sym (n : nat) (σ τ : coord -> coord) (γ : color -> color) : Prop := mkSymmetry {
  sy_on : forall p, on n p -> on n (σ p);
  sy_on' : forall p, on n p -> on n (τ p);
  sy_left : forall p, on n p -> τ (σ p) = p;
  sy_right : forall p, on n p -> σ (τ p) = p;
  sy_adj : forall p q, on n p -> on n q -> adj p q -> adj (σ p) (σ q);
  sy_adj' : forall p q, on n p -> on n q -> adj p q -> adj (τ p) (τ q);
  sy_color : forall c, γ (γ c) = c
}.

(** the eight symmetries of the square *)
Definition square_symmetry (n : nat) (k : nat) (p : coord) : coord :=
  let (x, y) := p in
  match k with
  | 0 => (x, y) | 1 => (x, n - 1 - y) | 2 => (n - 1 - x, y) | 3 => (n - 1 - x, n - 1 - y)
  | 4 => (y, x) | 5 => (y, n - 1 - x) | 6 => (n - 1 - y, x) | _ => (n - 1 - y, n - 1 - x)
  end%nat.

(** [Q] is the image of the position [P] *)
Definition image (n : nat) (σ : coord -> coord) (γ : color -> color) (P Q : pos) : Prop :=
  forall p, on n p -> Q (σ p) = option_map γ (P p).

(** stones of colour [c] captured so far *)
Definition caught (g : game) (c : color) : N :=
  match c with Black => snd (gm_prisoners g) | White => fst (gm_prisoners g) end.

Definition image_end (γ : color -> color) (e : endgame) : endgame :=
  match e with
  | WinnerByScore c x => WinnerByScore (γ c) x
  | WinnerByResign c => WinnerByResign (γ c)
  | WinnerByTime c => WinnerByTime (γ c)
  | WinnerByForfeit c => WinnerByForfeit (γ c)
  | Draw => Draw
  end.

Definition image_move (σ : coord -> coord) (γ : color -> color) (m : move) : move :=
  match m with
  | MPass => MPass
  | MResign c => MResign (γ c)
  | MPlay x y => MPlay (fst (σ (x, y))) (snd (σ (x, y)))
  end.

(** [h] is the image of the game [g], as far as moves are concerned: komi,
    scoring and handicap count are left out. *)
Record image_game (n : nat) (σ : coord -> coord) (γ : color -> color) (g h : game) : Prop := mkImage {
  im_pos : image n σ γ (position g) (position h);
  im_turn : gm_turn h = γ (gm_turn g);
  im_passes : gm_passes h = gm_passes g;
  im_outcome : gm_outcome h = option_map (image_end γ) (gm_outcome g);
  im_ko : gm_ko_point h = option_map σ (gm_ko_point g);
  im_rule : flag_illegal (gm_rule h) = flag_illegal (gm_rule g)
}.

(** the captured stones correspond *)
Definition image_caught (γ : color -> color) (g h : game) : Prop :=
  forall c, caught h (γ c) = caught g c.

(** the histories correspond as well *)
Definition image_history (n : nat) (σ : coord -> coord) (γ : color -> color) (g h : game) : Prop :=
  Forall2 (fun a b => image n σ γ (pos_of a) (pos_of b)) (gm_history g) (gm_history h).

(** the corresponding event of a run *)
Definition image_event (γ : color -> color) (e : event) : event :=
  match e with EvResign c => EvResign (γ c) | _ => e end.

(** Two games that look the same: positions, side to move, passes, outcome, ko
    point, prisoners, rule, and the positions of the history.  The numbering of
    the groups, their stone lists and the handicap count may differ. *)
Record look_alike (n : nat) (g h : game) : Prop := mkAlike {
  al_pos : same_pos n (position g) (position h);
  al_turn : gm_turn g = gm_turn h;
  al_passes : gm_passes g = gm_passes h;
  al_outcome : gm_outcome g = gm_outcome h;
  al_ko : gm_ko_point g = gm_ko_point h;
  al_prisoners : gm_prisoners g = gm_prisoners h;
  al_rule : gm_rule g = gm_rule h;
  al_history : Forall2 (fun a b => same_pos n (pos_of a) (pos_of b)) (gm_history g) (gm_history h)
}.

(** the part of a pair of scores (Black's, White's) that belongs to [c] *)
Definition side {A} (c : color) (s : A * A) : A := match c with Black => fst s | White => snd s end.
