(** Floating point numbers of the model.

    Rust's [f64]/[f32] are IEEE-754 binary64/binary32 with round-to-nearest-even.
    We use the standard library's executable specification [SpecFloat]
    (a single NaN, no payloads: nothing in gaoya inspects NaN payloads).
    This file contains definitions only; the rounding facts are in FloatFacts.v. *)
From Coq Require Import ZArith NArith Bool.
From Coq Require Export Floats.SpecFloat.

(** A value of either format; which [spec_float]s are genuine members of the format
    is decided by [f64_valid]/[f32_valid]. *)
Definition f64 := spec_float.
Definition f32 := spec_float.

Definition f64_valid (x : f64) : bool := valid_binary 53 1024 x.
Definition f32_valid (x : f32) : bool := valid_binary 24 128 x.

(** [n as f64] for an unsigned integer [n] (rounds to nearest even). *)
Definition f64_of_N (n : N) : f64 := binary_normalize 53 1024 (Z.of_N n) 0 false.
Definition f32_of_N (n : N) : f32 := binary_normalize 24 128 (Z.of_N n) 0 false.

(** Arithmetic. *)
Definition f64_div : f64 -> f64 -> f64 := SFdiv 53 1024.
Definition f64_sub : f64 -> f64 -> f64 := SFsub 53 1024.
Definition f64_mul : f64 -> f64 -> f64 := SFmul 53 1024.
Definition f32_div : f32 -> f32 -> f32 := SFdiv 24 128.
Definition f32_sub : f32 -> f32 -> f32 := SFsub 24 128.

(** The constant [1.0]. *)
Definition f64_one : f64 := f64_of_N 1.
Definition f32_one : f32 := f32_of_N 1.

(** Comparisons; all are [false] when an operand is NaN. *)
Definition f64_ge (x y : f64) : bool := SFleb y x.
Definition f64_gt (x y : f64) : bool := SFltb y x.
Definition f64_lt (x y : f64) : bool := SFltb x y.

(** [x.partial_cmp(&y)]: [None] iff one of them is NaN. *)
Definition f64_partial_cmp (x y : f64) : option comparison := SFcompare x y.

Definition f64_is_nan (x : f64) : bool :=
  match x with S754_nan => true | _ => false end.

(** Truncation towards zero of a finite number [m * 2^e]. *)
Definition f64_trunc_abs (m : positive) (e : Z) : Z :=
  match e with
  | Z0 => Zpos m
  | Zpos _ => Z.shiftl (Zpos m) e
  | Zneg _ => Z.shiftr (Zpos m) (- e)
  end.

(** [x as uN]: truncates, saturates at [0] and [max]; NaN becomes 0. *)
Definition f64_as_unsigned (max : N) (x : f64) : N :=
  match x with
  | S754_nan => 0
  | S754_zero _ => 0
  | S754_infinity true => 0
  | S754_infinity false => max
  | S754_finite true _ _ => 0
  | S754_finite false m e => N.min max (Z.to_N (f64_trunc_abs m e))
  end.
