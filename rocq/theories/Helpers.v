(** Model of the private helper functions of gaoya/src/minhash/minhash_index.rs and
    gaoya/src/simhash/sim_hash_index.rs that no other code calls. Definitions only. *)
From stdpp Require Import base list gmap.
From Coq Require Import NArith.
From Verif Require Import Base Float Similarity Container MinHashIndex SimHashBits Permutation
  SimHashIndex.

Section MinHash.
Context {T : Type} `{!EqDecision T}.
Context {Id : Type} `{Countable Id}.
Context (K : id_container Id).
Context (bh : list T -> N).

(** minhash_index.rs:241-249 [MinHashBand::has_ids]. *)
Definition has_ids (sig : list T) (b : band (carrier K)) : res bool :=
  k ← band_key K bh b sig;
  Ok (match hash_table b !! k with
      | Some c => Nat.ltb 0 (ic_len K c)
      | None => false
      end).

(** minhash_index.rs:736-739: one candidate; [self.id_signatures[candidate]] panics if absent. *)
Definition filter_keep (m : index (carrier K) Id T) (q : list T) (id : Id) : res bool :=
  sig ← id_signatures m !! id;
  similarity ← compute_minhash_distance q sig;
  Ok (f64_ge similarity (threshold m)).

(** minhash_index.rs:729-744 [filter_by_minhash_similarity]. The order in which the candidates
    are visited does not matter: the result is a set and any panic aborts the call. *)
Definition filter_by_minhash_similarity (m : index (carrier K) Id T) (q : list T)
    (cands : gset Id) : res (gset Id) :=
  l ← filter_res (filter_keep m q) (elements cands);
  Ok (list_to_set l).
End MinHash.

Section SimHash.
Context {Id : Type} `{Countable Id}.

(** [iter().sum::<usize>()]; overflow is not modelled. *)
Definition sum_usize (l : list nat) : nat := foldl Nat.add 0 l.

(** sim_hash_index.rs:86-92 [SimHashTable::avg_bucket_count]. *)
Definition table_avg_bucket_count (t : table Id) : option nat :=
  let sum := sum_usize ((fun kv => length kv.2) <$> map_to_list (t_table t)) in
  match size (t_table t) with
  | 0 => None
  | len => Some (sum / len)
  end.

(** sim_hash_index.rs:231-244 [SimHashIndex::avg_bucket_count]. *)
Definition avg_bucket_count (m : sindex Id) : nat :=
  let counts := omap table_avg_bucket_count (hash_tables m) in
  match length counts with
  | 0 => 0
  | len => sum_usize counts / len
  end.
End SimHash.
