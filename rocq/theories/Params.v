(** Model of the parameter search of gaoya/src/minhash/mod.rs. Definitions only.
    [powf] is [f64::powf], left to the environment. *)
From stdpp Require Import base list.
From Coq Require Import NArith.
From Verif Require Import Base Float.

Section Params.
Context (powf : f64 -> f64 -> f64).

(** minhash/mod.rs:271-273: the closure [proba]. *)
Definition proba (s b r : f64) : f64 :=
  f64_sub f64_one (powf (f64_sub f64_one (powf s r)) b).

(** [n as f64] for a [usize]. *)
Definition usize_as_f64 (n : nat) : f64 := f64_of_N (N.of_nat n).

(** minhash/mod.rs:276-285: the [while] loop; [None] means that [fuel] rounds were not enough. *)
Fixpoint search (fuel : nat) (s : f64) (n : nat) (p : f64) (b r : nat) : option (nat * nat) :=
  if (1 <? b)%nat then
    let r1 := r + 1 in
    let b1 := n / r1 in
    if f64_gt (proba s (usize_as_f64 b1) (usize_as_f64 r1)) p then
      match fuel with
      | O => None
      | S fuel' => search fuel' s n p b1 r1
      end
    else Some (b, r)
  else Some (b, r).

(** minhash/mod.rs:270-287 [calculate_b_and_r], limited to [n] rounds. *)
Definition calculate_b_and_r (s : f64) (n : nat) (p : f64) : option (nat * nat) :=
  search n s n p n 1.

(** minhash/mod.rs:259-262 [calculate_minhash_params]; the literal 0.99. *)
Definition calculate_minhash_params (s : f64) (n : nat) : option (nat * nat) :=
  calculate_b_and_r s n (f64_div (f64_of_N 99) (f64_of_N 100)).

(** minhash/mod.rs:264-267 [calculate_minhash_params_with_proba]. *)
Definition calculate_minhash_params_with_proba (s : f64) (n : nat) (p : f64)
  : option (nat * nat) := calculate_b_and_r s n p.
End Params.
