(** Specification vocabulary for angles: the real number a float stands for. *)
From Coq Require Import Reals ZArith.
From Verif Require Import Float.

Definition real_of (x : f64) : R :=
  match x with
  | S754_finite s m e => (IZR (if s then Z.neg m else Z.pos m) * powerRZ 2 e)%R
  | _ => 0%R
  end.
