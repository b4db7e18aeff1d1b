(** What correct rounding means for [f32], in whole numbers only. *)
From Verif Require Import Float32 ScoreSpec.
From Coq Require Import ZArith.
Open Scope Z_scope.

(** Every finite [f32] is a whole multiple of the smallest one, 2^-149. *)
Definition units (x : f32) : option Z :=
  match x with
  | S754_zero _ => Some 0
  | S754_finite s m e => Some (cond_Zopp s (Zpos m) * 2 ^ (e + 149))
  | _ => None
  end.

(** the number of units in a whole number of points *)
Definition points_in_units (z : Z) : Z := z * 2 ^ 149.

(** the last bit of the mantissa is clear *)
Definition even_mantissa (x : f32) : bool :=
  match x with S754_finite _ m _ => Z.even (Zpos m) | _ => true end.

(** [x] is [z] units rounded to nearest, ties to even: no other [f32] is nearer,
    and if one is as near the mantissa of [x] is even. *)
Definition rounds_to (x : f32) (z : Z) : Prop :=
  is_f32 x /\ exists u, units x = Some u /\
    forall y v, is_f32 y -> units y = Some v ->
      v = u \/ Z.abs (u - z) < Z.abs (v - z) \/ Z.abs (u - z) = Z.abs (v - z) /\ even_mantissa x = true.

(** The score of a side without komi, in points.  The score flags are the bits 0
    (stones), 1 (komi) and 2 (prisoners) of a mask. *)
Definition side_points (flags : N) (territory stones prisoners : N) : Z :=
  Z.of_N territory + (if N.testbit flags 2 then Z.of_N prisoners else 0)
   + (if N.testbit flags 0 then Z.of_N stones else 0).
