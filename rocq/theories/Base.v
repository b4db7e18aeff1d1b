(** Common ground of the model: results of Rust computations, arrays,
    fixed-width integers.  No function of /repo is modelled in this file, only
    the language features that the code of /repo uses. *)
From Coq Require Export NArith ZArith SpecFloat.
From stdpp Require Export numbers list_numbers.
From stdpp Require Export list.

(** Outcome of a Rust computation, for example src/rules/game.rs:173-198 [play]
    (whose line 176 asserts).
    - [Ok a]     : normal return with value [a];
    - [Panic]    : the thread panics (failed assertion, index out of range,
                   [unwrap] on [None], division by zero, overflow in a debug
                   build...).  The value that a caller could look
                   at after [catch_unwind] is not part of it: see Unwind.v;
    - [Diverge]  : an endless loop. *)
Inductive res (A : Type) : Type :=
| Ok (a : A)
| Panic
| Diverge.
Arguments Ok {A} _.
Arguments Panic {A}.
Arguments Diverge {A}.

(** Sequencing: what follows a panic or an endless loop does not run; any block
    of statements, for example src/pieces/goban.rs:153-227. *)
Definition bind {A B : Type} (m : res A) (k : A -> res B) : res B :=
  match m with
  | Ok a => k a
  | Panic => Panic
  | Diverge => Diverge
  end.

Notation "'let!' x := m 'in' k" := (bind m (fun x => k))
  (at level 200, x name, m at level 100, k at level 200, right associativity).
Notation "'let!' ' p := m 'in' k" := (bind m (fun x => match x with p => k end))
  (at level 200, p pattern, m at level 100, k at level 200, right associativity).

(** [assert!(b)] : checked in every build; src/pieces/goban.rs:59, 532, 536 and
    src/rules/game.rs:176. *)
Definition assert_ (b : bool) : res unit := if b then Ok tt else Panic.

(** [debug_assert!(b)] : checked only when [dbg] holds (debug build).  The
    condition is itself a computation that is not run in release builds;
    src/pieces/goban.rs:276, 281, 474, 525, src/pieces/group.rs:119, 135,
    src/pieces/zobrist.rs:731. *)
Definition debug_assert (dbg : bool) (b : res bool) : res unit :=
  if dbg then (let! x := b in assert_ x) else Ok tt.

(** [Option::unwrap]; src/pieces/group.rs:187-207, src/pieces/goban.rs:478, 526,
    541-552. *)
Definition unwrap {A} (o : option A) : res A :=
  match o with Some a => Ok a | None => Panic end.

(** [v[i]] (read) and [v[i] = x] on slices and vectors; for example
    src/pieces/goban.rs:482, 506, 517 and src/pieces/group.rs:26-28, 253. *)
Definition vget {A} (v : list A) (i : nat) : res A := unwrap (v !! i).
(** [v[i] = x]; src/pieces/goban.rs:482, 517 and src/pieces/group.rs:26-28 *)
Definition vset {A} (v : list A) (i : nat) (x : A) : res (list A) :=
  if (i <? length v)%nat then Ok (<[ i := x ]> v) else Panic.

(** [slice::swap]; src/pieces/goban.rs:571-572. *)
Definition vswap {A} (v : list A) (i j : nat) : res (list A) :=
  let! x := vget v i in
  let! y := vget v j in
  let! v1 := vset v i y in
  vset v1 j x.

(** [ArrayVec::<_, cap>::push] panics when the array is full; the arrays of
    src/pieces/goban.rs:159-182, 333, 392 and src/pieces/group.rs:50. *)
Definition av_push {A} (cap : nat) (l : list A) (x : A) : res (list A) :=
  if (length l <? cap)%nat then Ok (l ++ [x]) else Panic.

(** [slice::contains] on indices; src/pieces/goban.rs:169, 172, 336. *)
Definition mem (x : nat) (l : list nat) : bool := existsb (Nat.eqb x) l.

(** Iterator adapters with an effectful body, evaluated left to right; [any]
    stops at the first success as [Iterator::any] does; for example
    src/pieces/goban.rs:100-105 and src/rules/game.rs:162-165, 284, 435. *)
Fixpoint mapM {A B} (f : A -> res B) (l : list A) : res (list B) :=
  match l with
  | [] => Ok []
  | x :: t => let! y := f x in let! ys := mapM f t in Ok (y :: ys)
  end.

(** [Iterator::filter] with an effectful predicate; src/rules/game.rs:162-165 *)
Fixpoint filterM {A} (f : A -> res bool) (l : list A) : res (list A) :=
  match l with
  | [] => Ok []
  | x :: t =>
      let! b := f x in
      let! ys := filterM f t in
      Ok (if b then x :: ys else ys)
  end.

(** [Iterator::any]; src/rules/game.rs:284, 435 *)
Fixpoint anyM {A} (f : A -> res bool) (l : list A) : res bool :=
  match l with
  | [] => Ok false
  | x :: t => let! b := f x in if b then Ok true else anyM f t
  end.

(** A [for] loop over [l] threading a state; for example
    src/pieces/goban.rs:163-180. *)
Fixpoint foldM {A S} (f : S -> A -> res S) (l : list A) (s : S) : res S :=
  match l with
  | [] => Ok s
  | x :: t => let! s' := f s x in foldM f t s'
  end.

(** Arithmetic on fixed-width integers: [a + b] panics on overflow in debug
    builds and wraps in release builds.  Coordinates are u8 (src/pieces/mod.rs:7):
    src/pieces/util.rs:41-64; the numbers of src/pieces/goban.rs:244-260 and
    src/rules/game.rs:179, 459-460 are u32. *)
Definition u8_add (dbg : bool) (a b : nat) : res nat :=
  if (a + b <? 256)%nat then Ok (a + b)%nat
  else if dbg then Panic else Ok ((a + b) mod 256)%nat.
(** [a * b] on u8; src/pieces/goban.rs:393, src/rules/game.rs:141 *)
Definition u8_mul (dbg : bool) (a b : nat) : res nat :=
  if (a * b <? 256)%nat then Ok (a * b)%nat
  else if dbg then Panic else Ok ((a * b) mod 256)%nat.
(** [a - b] on u8; src/rules/sgf_bridge.rs:121-128 *)
Definition u8_sub (dbg : bool) (a b : nat) : res nat :=
  if (b <=? a)%nat then Ok (a - b)%nat
  else if dbg then Panic else Ok (256 + a - b)%nat.
(** [u8::wrapping_sub(1)]; src/pieces/util.rs:43-62. *)
Definition u8_wrapping_pred (a : nat) : nat :=
  match a with O => 255 | S a' => a' end.
(** [x as u8]; src/pieces/util.rs:24-25, src/rules/mod.rs:29. *)
Definition as_u8 (a : nat) : nat := a mod 256.

(** The number of stones of a group is a u16 (src/pieces/group.rs:68-75):
    src/pieces/goban.rs:524 and 574. *)
Definition u16_add (dbg : bool) (a b : nat) : res nat :=
  if (N.of_nat (a + b) <? 65536)%N then Ok (a + b)%nat
  else if dbg then Panic else Ok (N.to_nat (N.of_nat (a + b) mod 65536)).
(** [a + b] on u32; src/rules/game.rs:179, 459-460 *)
Definition u32_add (dbg : bool) (a b : N) : res N :=
  if (a + b <? 4294967296)%N then Ok (a + b)%N
  else if dbg then Panic else Ok ((a + b) mod 4294967296)%N.

(** [NonMaxU16::new(i as u16).unwrap()] : the cast keeps the low 16 bits, the
    constructor rejects 65535; src/pieces/goban.rs:202, 482. *)
Definition nonmax_u16 (i : nat) : res nat :=
  let w := (N.of_nat i mod 65536)%N in
  if (w =? 65535)%N then Panic else Ok (N.to_nat w).
