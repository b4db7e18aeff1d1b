(** The derived equalities of src/rules/mod.rs. *)
From Verif Require Import Float32 Game.
From Coq Require Import ZArith.

(** [==] of two [f32] (IEEE 754: NaN differs from everything, the two zeros are
    equal); used by the derived equalities below *)
Definition f32_eq (a b : f32) : bool := SFeqb a b.

(** src/rules/mod.rs:59-66 [PartialEq] derived for [EndGame] *)
Definition endgame_eq (a b : endgame) : bool :=
  match a, b with
  | WinnerByScore c p, WinnerByScore d q => color_eqb c d && f32_eq p q
  | WinnerByResign c, WinnerByResign d => color_eqb c d
  | WinnerByTime c, WinnerByTime d => color_eqb c d
  | WinnerByForfeit c, WinnerByForfeit d => color_eqb c d
  | Draw, Draw => true
  | _, _ => false
  end.

(** src/rules/mod.rs:117-122 [PartialEq] derived for [Rule]; flag sets are
    compared by their bits *)
Definition rule_eq (a b : rule) : bool :=
  f32_eq (r_komi a) (r_komi b) && (flag_illegal a =? flag_illegal b)%N && (flag_score a =? flag_score b)%N.

(** src/rules/mod.rs:15-21 [PartialEq] derived for [GobanSizes] *)
Definition sizes_eq (a b : goban_sizes) : bool :=
  match a, b with
  | Nineteen, Nineteen | Nine, Nine | Thirteen, Thirteen => true
  | Custom h w, Custom h' w' => (h =? h')%N && (w =? w')%N
  | _, _ => false
  end.

(** src/rules/mod.rs:46-51 [PartialEq] derived for [Move] *)
Definition move_eq (a b : move) : bool :=
  match a, b with
  | MPass, MPass => true
  | MResign c, MResign d => color_eqb c d
  | MPlay x y, MPlay x' y' => (x =? x')%nat && (y =? y')%nat
  | _, _ => false
  end.
