(** Property C55: set similarity in f32. *)
From stdpp Require Import base list gmap fin_sets.
From Coq Require Import NArith ZArith Reals.
From Flocq Require Import Core BinarySingleNaN.
From Verif Require Import Float FloatFacts Jaccard JaccardFacts.
Local Open Scope nat_scope.

Theorem C55_jaccard {U} `{Countable U} (xs ys : list U) :
  let A : gset U := list_to_set xs in let B : gset U := list_to_set ys in
  A ∪ B ≠ ∅ -> (N.of_nat (size (A ∪ B)) <= 2 ^ 24)%N ->
  let s := compute_jaccard_similarity xs ys in
  f32_valid s = true /\ is_finite_SF s = true /\
  SF2R radix2 s = round radix2 (FLT_exp (-149) 24) ZnearestE
    (IZR (Z.of_nat (size (A ∩ B))) / IZR (Z.of_nat (size (A ∪ B)))) /\
  (0 <= SF2R radix2 s <= 1)%R /\
  (s = f32_one <-> A = B) /\
  (SF2R radix2 s = 0%R <-> A ∩ B = ∅) /\
  let d := compute_jaccard_distance xs ys in
  f32_valid d = true /\ is_finite_SF d = true /\
  SF2R radix2 d = round radix2 (FLT_exp (-149) 24) ZnearestE (1 - SF2R radix2 s) /\
  (0 <= SF2R radix2 d <= 1)%R /\
  (SF2R radix2 d = 0%R <-> A = B) /\
  (SF2R radix2 d = 1%R <-> A ∩ B = ∅).
Proof. exact (jaccard_f32 xs ys). Qed.

(** For all sizes. *)
Theorem C55_symmetric {U} `{Countable U} (xs ys : list U) :
  compute_jaccard_similarity xs ys = compute_jaccard_similarity ys xs.
Proof. exact (jaccard_sym xs ys). Qed.

Theorem C55_set_semantics {U} `{Countable U} (xs ys xs' ys' : list U) :
  (forall u, u ∈ xs <-> u ∈ xs') -> (forall u, u ∈ ys <-> u ∈ ys') ->
  compute_jaccard_similarity xs ys = compute_jaccard_similarity xs' ys'.
Proof. exact (jaccard_set xs ys xs' ys'). Qed.

Theorem C55_nan {U} `{Countable U} (xs ys : list U) :
  (N.of_nat (size ((list_to_set xs : gset U) ∪ list_to_set ys)) <= 2 ^ 24)%N ->
  compute_jaccard_similarity xs ys = S754_nan <-> xs = [] /\ ys = [].
Proof. exact (jaccard_nan xs ys). Qed.

Example C55_example :
  compute_jaccard_similarity [1;2;3;2]%N [2;3;4]%N = f32_div (f32_of_N 2) (f32_of_N 4) /\
  compute_jaccard_distance [1;2;3;2]%N [2;3;4]%N = f32_div (f32_of_N 1) (f32_of_N 2) /\
  compute_jaccard_similarity [1]%N [] = f32_of_N 0 /\
  compute_jaccard_similarity (U := N) [] [] = S754_nan /\
  bool_decide ((list_to_set [1;2;3;2]%N : gset N) ∪ list_to_set [2;3;4]%N ≠ ∅) = true.
Proof. split_and!; vm_compute; reflexivity. Qed.
Print Assumptions C55_jaccard.
Print Assumptions C55_symmetric.
Print Assumptions C55_set_semantics.
Print Assumptions C55_nan.
