(** Properties C25-C27: parameter search and centroids. *)
From stdpp Require Import base list gmap.
From Coq Require Import NArith.
From Verif Require Import Base Float Container MinHashIndex SpecIndex ExampleIndex
  Params ParamsFacts Centroid SpecCentroid CentroidFacts.
Local Open Scope nat_scope.

(** ** C25. The search ends after at most [n] rounds, whatever [powf] is. *)
Theorem C25_params (powf : f64 -> f64 -> f64) (s : f64) (n : nat) (p : f64) :
  let passes w := f64_gt (f64_sub f64_one
      (powf (f64_sub f64_one (powf s (f64_of_N (N.of_nat w)))) (f64_of_N (N.of_nat (n / w))))) p
      = true in
  exists b r, calculate_minhash_params_with_proba powf s n p = Some (b, r) /\
    1 <= r /\ b = n / r /\ b * r <= n /\ (1 <= n -> 1 <= b /\ r <= n) /\
    (forall w, 2 <= w <= r -> passes w) /\ (1 < b -> ~ passes (r + 1)).
Proof. exact (b_and_r_spec powf s n p). Qed.

Theorem C25_default_proba (powf : f64 -> f64 -> f64) (s : f64) (n : nat) :
  calculate_minhash_params powf s n =
  calculate_minhash_params_with_proba powf s n (f64_div (f64_of_N 99) (f64_of_N 100)).
Proof. reflexivity. Qed.

(** Powers by repeated multiplication; the two calls documented in the source. *)
Definition powi (x y : f64) : f64 :=
  N.iter (f64_as_unsigned (2 ^ 32) y) (f64_mul x) f64_one.
Example C25_example :
  calculate_minhash_params powi half 128 = Some (42, 3) /\
  calculate_minhash_params powi (f64_div (f64_of_N 7) (f64_of_N 10)) 196 = Some (39, 5).
Proof. vm_compute. auto. Qed.
Print Assumptions C25_params.

(** Width 1 is never tested: the answer need not reach the desired probability. *)
Theorem C25_reaches_proba_refuted :
  exists (s p : f64) (n b r : nat), f64_gt s (f64_of_N 0) = true /\ f64_gt f64_one p = true /\
    calculate_minhash_params_with_proba powi s n p = Some (b, r) /\
    f64_gt (f64_sub f64_one (powi (f64_sub f64_one (powi s (f64_of_N (N.of_nat r))))
       (f64_of_N (N.of_nat b)))) p = false.
Proof.
  exists (f64_div (f64_of_N 1) (f64_of_N 10)), (f64_div (f64_of_N 99) (f64_of_N 100)), 16, 16, 1.
  vm_compute. auto.
Qed.
Print Assumptions C25_reaches_proba_refuted.
Print Assumptions C25_default_proba.

(** ** C26. [omap (spec_map .. !!) ids] are the signatures of the given ids that are stored. *)
Theorem C26_calculate_centroid {T} `{!EqDecision T} {Id} `{Countable Id}
    (k : container_kind) (bh : list T -> N) (nb bw : nat) (th : f64)
    (ops : list (op Id T)) (order : nat -> list (list T * nat) -> list (list T * nat))
    (ids : list Id) :
  is_map_order order ->
  let sigs := omap (fun id => spec_map (nb * bw) ops !! id) ids in
  match calculate_centroid order (after k bh nb bw th ops) ids with
  | Some c => length c = nb * bw /\ (nb = 0 \/ sigs ≠ []) /\
      (forall i, i < nb -> is_mode (nth_band bw i c) (nth_band bw i <$> sigs)) /\
      forall x, sum_list ((fun s => band_agreements nb bw x s) <$> sigs)
                <= sum_list ((fun s => band_agreements nb bw c s) <$> sigs)
  | None => 0 < nb /\ sigs = []
  end.
Proof. exact (index_centroid k bh nb bw th ops order ids). Qed.

(** Two iteration orders that break the tie in the second band differently. *)
Example C26_example :
  calculate_centroid (fun _ l => l) (after KVec bhx 2 2 half clean_ops) [1;2;77;3]%N
    = Some [1;2;7;8]%N /\
  calculate_centroid (fun _ => reverse) (after KVec bhx 2 2 half clean_ops) [1;2;77;3]%N
    = Some [1;2;3;4]%N /\
  calculate_centroid (fun _ l => l) (after KVec bhx 2 2 half clean_ops) [77]%N = None /\
  is_map_order (fun _ => reverse (A := list N * nat)).
Proof. split_and!; try (vm_compute; reflexivity). intros i l. apply reverse_Permutation. Qed.
Print Assumptions C26_calculate_centroid.

(** ** C27 *)
Theorem C27_minhash_centroid {T} `{!EqDecision T} (n : nat)
    (order : nat -> list (T * nat) -> list (T * nat)) (sigs : list (list T)) :
  is_map_order order -> sigs ≠ [] -> Forall (fun s => length s = n) sigs ->
  exists c, minhash_centroid order sigs = Some c /\ length c = n /\
    (forall i x, c !! i = Some x -> exists s, s ∈ sigs /\ s !! i = Some x) /\
    forall x, length x = n ->
      sum_list ((fun s => agreements x s) <$> sigs) <= sum_list ((fun s => agreements c s) <$> sigs).
Proof. exact (hash_centroid_best order n sigs). Qed.

(** For signatures of different lengths: it panics iff there is none or one is longer than the
    first; otherwise every value is a most frequent one among the signatures reaching that far. *)
Theorem C27_minhash_centroid_ragged {T} `{!EqDecision T}
    (order : nat -> list (T * nat) -> list (T * nat)) (sigs : list (list T)) :
  is_map_order order ->
  match minhash_centroid order sigs with
  | Some c => exists s0, sigs !! 0 = Some s0 /\ length c = length s0 /\
      Forall (fun s => length s <= length s0) sigs /\
      forall i x, c !! i = Some x -> is_mode x (omap (fun s => s !! i) sigs)
  | None => sigs = [] \/
      exists s0, sigs !! 0 = Some s0 /\ Exists (fun s => length s0 < length s) sigs
  end.
Proof. exact (hash_centroid_spec order sigs). Qed.

Example C27_example :
  minhash_centroid (fun _ l => l)
    [[1;2;3;4;5]; [1;2;3;40;51]; [1;2;3;4;52]; [1;2;3;4;52]; [1;2;30;42;50]]%N
  = Some [1;2;3;4;52]%N.
Proof. vm_compute. reflexivity. Qed.
Print Assumptions C27_minhash_centroid.
Print Assumptions C27_minhash_centroid_ragged.
