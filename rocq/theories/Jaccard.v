(** Model of the set similarity of gaoya/src/minhash/mod.rs. Definitions only. *)
From stdpp Require Import base list gmap fin_sets.
From Coq Require Import NArith.
From Verif Require Import Float.

Section Jaccard.
Context {U : Type} `{Countable U}.

(** minhash/mod.rs:86-95 [compute_jaccard_similarity]; the subtraction cannot underflow. *)
Definition compute_jaccard_similarity (xs ys : list U) : f32 :=
  let h1 : gset U := list_to_set xs in
  let h2 : gset U := list_to_set ys in
  let intersection_len := size (h1 ∩ h2) in
  f32_div (f32_of_N (N.of_nat intersection_len))
    (f32_of_N (N.of_nat (size h1 + size h2 - intersection_len))).

(** minhash/mod.rs:97-103 [compute_jaccard_distance]. *)
Definition compute_jaccard_distance (xs ys : list U) : f32 :=
  f32_sub f32_one (compute_jaccard_similarity xs ys).
End Jaccard.
