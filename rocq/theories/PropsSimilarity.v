(** Properties C17, C18: similarity of two signatures. [agreements] is the number of positions
    with equal hashes (SpecIndex.v); [rnd64] is rounding to nearest even in binary64. *)
From stdpp Require Import base list.
From Coq Require Import NArith ZArith Reals.
From Flocq Require Import Core BinarySingleNaN.
From Verif Require Import Base Float FloatFacts F64Facts Similarity SpecIndex SimilarityFacts
  MinHashIndexFacts2 SimilarityThms ExampleIndex.
Local Open Scope nat_scope.

(** ** C17 *)
Theorem C17_similarity {T} `{!EqDecision T} (x y : list T) :
  length x = length y -> 0 < length x -> (N.of_nat (length x) <= 2 ^ 53)%N ->
  exists s, compute_minhash_similarity x y = Some s /\
    compute_minhash_similarity y x = Some s /\
    f64_valid s = true /\
    (SF2R radix2 s = round radix2 (FLT_exp (-1074) 53) ZnearestE
                       (IZR (Z.of_nat (agreements x y)) / IZR (Z.of_nat (length x))))%R /\
    (0 <= SF2R radix2 s <= 1)%R /\
    (s = f64_one <-> x = y).
Proof. exact (similarity_f64 x y). Qed.

(** Strictly increasing in the number of agreeing positions. *)
Theorem C17_similarity_strict {T} `{!EqDecision T} (x y x' y' : list T) (s s' : f64) :
  length x = length x' -> (N.of_nat (length x) < 2 ^ 51)%N ->
  compute_minhash_similarity x y = Some s -> compute_minhash_similarity x' y' = Some s' ->
  0 < length x ->
  f64_lt s s' = true <-> agreements x y < agreements x' y'.
Proof. exact (similarity_strict x y x' y' s s'). Qed.

Theorem C17_similarity_errors {T} `{!EqDecision T} (x y : list T) :
  (length x ≠ length y <-> compute_minhash_similarity x y = None) /\
  compute_minhash_similarity (T := T) [] [] = Some S754_nan.
Proof. exact (similarity_errors x y). Qed.

(** [compute_minhash_distance] is one minus it, and orders pairs the other way round. *)
Theorem C17_distance {T} `{!EqDecision T} (x y x' y' : list T) :
  length x = length y -> length x' = length x -> length y' = length x ->
  0 < length x -> (N.of_nat (length x) < 2 ^ 51)%N ->
  exists d d', compute_minhash_distance x y = Some d /\ compute_minhash_distance x' y' = Some d' /\
    (0 <= SF2R radix2 d <= 1)%R /\
    (f64_lt d d' = true <-> agreements x' y' < agreements x y) /\
    (SF2R radix2 d = 0%R <-> x = y).
Proof. exact (distance_f64 x y x' y'). Qed.

Example C17_example :
  compute_minhash_similarity [1;2;3;4]%N [1;2;3;5]%N
    = Some (f64_div (f64_of_N 3) (f64_of_N 4)) /\
  agreements [1;2;3;4]%N [1;2;3;5]%N = 3 /\
  compute_minhash_distance [1;2;3;4]%N [1;2;3;5]%N = Some (f64_div (f64_of_N 1) (f64_of_N 4)).
Proof. vm_compute. auto. Qed.
Print Assumptions C17_similarity.
Print Assumptions C17_similarity_strict.
Print Assumptions C17_similarity_errors.
Print Assumptions C17_distance.

(** ** C18 *)
Theorem C18_greater_than_threshold {T} `{!EqDecision T} (x y : list T) (t : f64) :
  length x = length y -> 0 < length x -> (N.of_nat (length x) < 2 ^ 32)%N ->
  f64_valid t = true -> f64_ge t (f64_of_N 0) = true -> f64_ge f64_one t = true ->
  exists b, similarity_greater_than_threshold x y t = Some b /\
    (b = true <->
     (Zfloor (round radix2 (FLT_exp (-1074) 53) ZnearestE
                (IZR (Z.of_nat (length x)) * SF2R radix2 t)) <= Z.of_nat (agreements x y))%Z).
Proof. exact (greater_than_threshold x y t). Qed.

Theorem C18_implied_by_similarity {T} `{!EqDecision T} (x y : list T) (t s : f64) :
  0 < length x -> (N.of_nat (length x) < 2 ^ 32)%N -> f64_valid t = true ->
  compute_minhash_similarity x y = Some s -> f64_ge s t = true ->
  similarity_greater_than_threshold x y t = Some true.
Proof. exact (implied_by_similarity x y t s). Qed.

Example C18_example :
  f64_valid half = true /\ f64_ge half (f64_of_N 0) = true /\ f64_ge f64_one half = true /\
  similarity_greater_than_threshold [1;2;3;4]%N [1;2;3;5]%N half = Some true /\
  similarity_greater_than_threshold [1;2;3;4]%N [1;0;0;5]%N half = Some false.
Proof. vm_compute. by auto 10. Qed.

(** The converse fails: one match of three, threshold one half. *)
Theorem C18_equivalence_refuted :
  exists (x y : list N) (t s : f64),
    length x = length y /\ f64_valid t = true /\ compute_minhash_similarity x y = Some s /\
    f64_ge s t = false /\ similarity_greater_than_threshold x y t = Some true.
Proof.
  exists [1;2;3]%N, [1;0;0]%N, half, (f64_div (f64_of_N 1) (f64_of_N 3)).
  vm_compute. by auto 10.
Qed.

(** On empty signatures the answer is [false] whatever the threshold. *)
Theorem C18_empty {T} `{!EqDecision T} (t : f64) :
  similarity_greater_than_threshold (T := T) [] [] t = Some false.
Proof. reflexivity. Qed.
Print Assumptions C18_greater_than_threshold.
Print Assumptions C18_empty.
Print Assumptions C18_implied_by_similarity.
Print Assumptions C18_equivalence_refuted.
