(** Model of gaoya/src/simhash/mod.rs. Definitions only.

    A [SimHashBits] value of [W] bits ([u64]: W = 64, [u128]: W = 128) is a number below 2^W;
    the definitions are for any [W]. Arithmetic is that of a build with overflow checks: a shift
    by [W] or more panics (without the checks the shift amount is reduced modulo [W], see Unchecked.v).
    [to_u32_high_bits] and [to_u64_high_bits] (66-74), which nothing calls, are in Hashers.v. *)
From stdpp Require Import base list.
From Coq Require Import NArith ZArith.
From Verif Require Import Base Float.

(** [x << n] and [x >> n]. *)
Definition shl (W : nat) (x : N) (n : nat) : res N :=
  if (n <? W)%nat then Ok (N.shiftl x (N.of_nat n) mod 2 ^ N.of_nat W)%N else Panic.
Definition shr (W : nat) (x : N) (n : nat) : res N :=
  if (n <? W)%nat then Ok (N.shiftr x (N.of_nat n)) else Panic.

(** simhash/mod.rs:62-64 [count_ones] (the intrinsic of the integer type). *)
Fixpoint pos_ones (p : positive) : nat :=
  match p with xH => 1 | xO p' => pos_ones p' | xI p' => S (pos_ones p') end.
Definition count_ones (x : N) : nat := match x with N0 => 0 | Npos p => pos_ones p end.

(** simhash/mod.rs:77-79 [hamming_distance]. *)
Definition hamming_distance (x y : N) : nat := count_ones (N.lxor x y).

(** [std::f64::consts::PI]. *)
Definition f64_pi : f64 := S754_finite false 7074237752028440 (-51).

(** simhash/mod.rs:51-53 [hamming_angle]. *)
Definition hamming_angle (W : nat) (x y : N) : f64 :=
  f64_mul (f64_of_N (N.of_nat (hamming_distance x y)))
    (f64_div f64_pi (f64_of_N (N.of_nat W))).
