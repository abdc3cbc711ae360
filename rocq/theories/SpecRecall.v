(** Vocabulary of C75: the chance to share a bucket, and powers good enough to compute it. *)
From Coq Require Import Reals NArith ZArith.
From Verif Require Import Float SpecAngle.

(** The probability that one of [b] bands of [r] positions agrees, when each position agrees with
    probability [p]. *)
Definition share_bucket (p : R) (r b : nat) : R := (1 - (1 - p ^ r) ^ b)%R.

Definition finite_float (x : f64) : Prop :=
  f64_valid x = true /\ match x with S754_zero _ | S754_finite _ _ _ => True | _ => False end.
(** A float from 0 to 1. *)
Definition unit_float (x : f64) : Prop := finite_float x /\ (0 <= real_of x <= 1)%R.

(** [powf] stays within [0,1] and is at most 2^-52 from the power, for bases from 0 to 1 and whole
    exponents. (The C library's [pow] is off by less than a unit in the last place, that is by
    less than 2^-52.) *)
Definition accurate (powf : f64 -> f64 -> f64) : Prop :=
  forall (x : f64) (n : nat), unit_float x -> (1 <= n)%nat -> (N.of_nat n <= 2 ^ 53)%N ->
    let y := powf x (f64_of_N (N.of_nat n)) in
    unit_float y /\ (Rabs (real_of y - real_of x ^ n) <= powerRZ 2 (-52))%R.
