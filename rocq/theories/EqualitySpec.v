(** What it means for numbers, results and rules to be the same. *)
From Verif Require Import Float32 Game ScoreSpec RoundSpec.
From Coq Require Import ZArith.

(** two [f32] stand for the same number, possibly infinite *)
Inductive same_number : f32 -> f32 -> Prop :=
| same_finite x y u : units x = Some u -> units y = Some u -> same_number x y
| same_infinite s : same_number (S754_infinity s) (S754_infinity s).

(** two results are the same: the same way to end, the same winner, the same margin *)
Inductive same_result : endgame -> endgame -> Prop :=
| same_score c p q : same_number p q -> same_result (WinnerByScore c p) (WinnerByScore c q)
| same_resign c : same_result (WinnerByResign c) (WinnerByResign c)
| same_time c : same_result (WinnerByTime c) (WinnerByTime c)
| same_forfeit c : same_result (WinnerByForfeit c) (WinnerByForfeit c)
| same_draw : same_result Draw Draw.

(** the margin is an [f32] *)
Definition proper_result (e : endgame) : Prop := match e with WinnerByScore _ p => is_f32 p | _ => True end.
