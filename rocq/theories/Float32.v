(** IEEE-754 binary32 ([f32]) with round-to-nearest-even, through the executable
    specification of Coq's standard library (Coq.Floats.SpecFloat).  No function
    of /repo is modelled here, only the [f32] operations the code uses. *)
From Verif Require Export Base.

(** [f32]: src/rules/mod.rs:61, 119, src/rules/game.rs:253-276,
    src/pieces/goban.rs:39. *)
Definition f32 := spec_float.
(** bits of precision of [f32], src/rules/mod.rs:119 *)
Definition prec32 : Z := 24.
(** exponent bound of [f32], src/rules/mod.rs:119 *)
Definition emax32 : Z := 128.

(** the [f32] nearest to [m * 2^e] (literals, casts from integers);
    src/rules/mod.rs:124-140, src/rules/game.rs:260-269. *)
Definition f32_make (m e : Z) : f32 := binary_normalize prec32 emax32 m e false.

(** [x as f32] for an unsigned integer; src/rules/game.rs:260-269,
    src/pieces/goban.rs:39. *)
Definition f32_of_N (x : N) : f32 := f32_make (Z.of_N x) 0.

(** the operations of src/rules/game.rs:122-127, 258-276 and
    src/pieces/goban.rs:39 *)
Definition f32_add (a b : f32) : f32 := SFadd prec32 emax32 a b.
(** src/rules/game.rs:122-127 *)
Definition f32_sub (a b : f32) : f32 := SFsub prec32 emax32 a b.
(** [f32::abs], src/rules/game.rs:122 *)
Definition f32_abs (a : f32) : f32 := SFabs a.
(** [<] and [>], src/rules/game.rs:122-127 *)
Definition f32_lt (a b : f32) : bool := SFltb a b.
(** [f32::sqrt], src/pieces/goban.rs:39 *)
Definition f32_sqrt (a : f32) : f32 := SFsqrt prec32 emax32 a.

(** [f32::EPSILON] = 2^-23; src/rules/game.rs:122. *)
Definition f32_EPSILON : f32 := f32_make 1 (-23).

(** [x as u8] for an [f32]: truncation towards zero, saturating; NaN gives 0;
    src/pieces/goban.rs:39. *)
Definition f32_as_u8 (a : f32) : nat :=
  match a with
  | S754_zero _ => 0
  | S754_nan => 0
  | S754_infinity s => if s then 0 else 255
  | S754_finite s m e =>
      if s then 0
      else Z.to_nat (Z.min 255 (if (0 <=? e)%Z then Zpos m * 2 ^ e
                                else Zpos m / 2 ^ (- e))%Z)
  end.
