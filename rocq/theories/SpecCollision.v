(** Specification vocabulary for collisions of token hashes at a signature position. *)
From stdpp Require Import base list.
From Coq Require Import NArith ZArith.
From Verif Require Import MinHasher SpecMinHash.
Local Open Scope N_scope.

(** [x] and [y] agree in exactly their lowest [k] bits. *)
Definition agree_to (k x y : N) : Prop :=
  exists c : Z, Z.odd c = true /\ (Z.of_N x - Z.of_N y = 2 ^ Z.of_N k * c)%Z.

(** Two token hashes get the same value from multiplier [a] and increment [b]. *)
Definition collide (kind : hasher_kind) (b x y a : N) : Prop := affine kind a b x = affine kind a b y.

(** The multipliers a hasher draws from (min_hasher.rs:43, min_hasher64.rs:42): at least 1, below the modulus. *)
Definition multiplier (kind : hasher_kind) (a : N) : Prop := 0 < a /\ a < modulus kind.

(** How many bits the arithmetic is wider than the modulus, and how many times the modulus fits. *)
Definition spare_bits (kind : hasher_kind) : N := match kind with MinHasher64V1 => 3 | _ => 1 end.
Definition fits (kind : hasher_kind) : N := match kind with MinHasher64V1 => 8 | _ => 2 end.
