(** What scores are, independently of the model's arithmetic. *)
From Verif Require Import Float32.
From Coq Require Import ZArith.
Open Scope Z_scope.

(** [x] is a genuine binary32 value (canonical mantissa, exponent in range) *)
Definition is_f32 (x : f32) : Prop := valid_binary prec32 emax32 x = true.

(** [x] is finite and its value is exactly [z / 2] *)
Definition halves (x : f32) (z : Z) : Prop :=
  match x with
  | S754_zero _ => z = 0
  | S754_finite s m e =>
      let k := Z.min e (-1) in cond_Zopp s (Zpos m) * 2 ^ (e - k) = z * 2 ^ (-1 - k)
  | _ => False
  end.

(** Twice the score of each side.  The score flags are the bits 0 (stones),
    1 (komi) and 2 (prisoners) of a mask. *)
Definition black2 (flags : N) (territory stones prisoners : N) : Z :=
  2 * Z.of_N territory + (if N.testbit flags 2 then 2 * Z.of_N prisoners else 0)
   + (if N.testbit flags 0 then 2 * Z.of_N stones else 0).
Definition white2 (flags : N) (territory stones prisoners : N) (komi2 : Z) : Z :=
  black2 flags territory stones prisoners + (if N.testbit flags 1 then komi2 else 0).
