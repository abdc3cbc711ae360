(** Model of the similarity functions of gaoya/src/minhash/mod.rs. Definitions only. *)
From stdpp Require Import base list.
From Coq Require Import NArith.
From Verif Require Import Base Float.

Section Similarity.
Context {T : Type} `{!EqDecision T}.

(** minhash/mod.rs:124-128: number of positions with equal hashes, summed over the zipped
    iterators. *)
Definition count_matches (l1 l2 : list T) : N :=
  fold_left (fun acc p => (acc + if decide (p.1 = p.2) then 1 else 0)%N) (zip l1 l2) 0%N.

(** minhash/mod.rs:118-130 [compute_minhash_similarity]: panics on different lengths, else
    [(matches as f64) / (num_hashes as f64)]. *)
Definition compute_minhash_similarity (l1 l2 : list T) : res f64 :=
  if decide (length l1 = length l2) then
    Ok (f64_div (f64_of_N (count_matches l1 l2)) (f64_of_N (N.of_nat (length l1))))
  else Panic.

(** minhash/mod.rs:133-138 [compute_minhash_distance]. *)
Definition compute_minhash_distance (l1 l2 : list T) : res f64 :=
  s ← compute_minhash_similarity l1 l2; Ok (f64_sub f64_one s).

(** minhash/mod.rs:152-159: the loop with early exit. [num_matches] is a [u32] in the code;
    it cannot overflow for signatures shorter than 2^32. *)
Fixpoint sgt_loop (expected num : N) (ps : list (T * T)) : bool :=
  match ps with
  | [] => false
  | p :: ps' =>
      let num' := (if decide (p.1 = p.2) then num + 1 else num)%N in
      if (expected <=? num')%N then true else sgt_loop expected num' ps'
  end.

(** minhash/mod.rs:140-161 [similarity_greater_than_threshold];
    [expected_matches = (num_hashes as f64 * threshold) as u32]. *)
Definition similarity_greater_than_threshold (l1 l2 : list T) (threshold : f64) : res bool :=
  if decide (length l1 = length l2) then
    let expected := f64_as_unsigned (2 ^ 32 - 1)
                      (f64_mul (f64_of_N (N.of_nat (length l1))) threshold) in
    Ok (sgt_loop expected 0 (zip l1 l2))
  else Panic.
End Similarity.
