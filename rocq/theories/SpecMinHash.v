(** Specification vocabulary for minhash signatures. *)
From stdpp Require Import base list.
From Coq Require Import NArith.
From Verif Require Import MinHasher.
Local Open Scope N_scope.

(** The full-width hash of a token with coefficients [a], [b]: 32-bit arithmetic and reduction
    modulo 2^31-1 for MinHasher32/16/8, 64-bit arithmetic and 2^61-1 for MinHasher64V1. *)
Definition affine (k : hasher_kind) (a b h : N) : N :=
  match k with
  | MinHasher64V1 => ((h * a + b) mod 2 ^ 64) mod (2 ^ 61 - 1)
  | _ => ((h * a + b) mod 2 ^ 32) mod (2 ^ 31 - 1)
  end.

(** [v] is the least element of [l]. *)
Definition is_least (v : N) (l : list N) : Prop := v ∈ l /\ forall x, x ∈ l -> v <= x.

(** Hashers whose signature values are not truncated. *)
Definition full_width (k : hasher_kind) : Prop := k = MinHasher32 \/ k = MinHasher64V1.

(** The bits of a token hash a hasher uses, and the modulus of its position hashes. *)
Definition hash_bits (k : hasher_kind) : N := match k with MinHasher64V1 => 64 | _ => 32 end.
Definition modulus (k : hasher_kind) : N :=
  match k with MinHasher64V1 => 2305843009213693951 | _ => 2147483647 end.
(** 2^64 = 8 * (2^61 - 1) + 8 and 2^32 = 2 * (2^31 - 1) + 2. *)
Definition fair_share (k : hasher_kind) (v : N) : nat :=
  match k with
  | MinHasher64V1 => if v <? 8 then 9 else 8
  | _ => if v <? 2 then 3 else 2
  end.
