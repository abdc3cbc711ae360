(** Model of gaoya/benches/lsh_bench.rs: the two benchmarks that compare an index with a scan.
    Definitions only.

    Modelled is what one iteration of the closures computes; criterion only repeats them. The
    tokens [shingle_text(s, 3)] of the random texts are the argument [items], one list for each
    text; their number (1_000_000 in the file) is arbitrary. [ids] have type i32. *)
From stdpp Require Import base list gmap.
From Coq Require Import NArith ZArith.
From Verif Require SimHash.
From Verif Require Import Base Float Container Similarity MinHashIndex MinHasher SimHashBits SimHashIndex.

Section Bench.
Context {U : Type}.

(** lsh_bench.rs:49, 89: [(0..n).into_iter().collect()]. *)
Definition bench_ids (n : nat) : list Z := Z.of_nat <$> seq 0 n.

Section MinHash.
Context (hash : U -> N) (draws : N -> nat -> nat -> N) (bh : list N -> N).
Context (order : gset Z -> list Z) (sched : list nat).

(** lsh_bench.rs:50: [0.7]. *)
Definition bench_threshold : f64 := f64_div (f64_of_N 7) (f64_of_N 10).

(** lsh_bench.rs:35, 40-48: the signatures. *)
Definition bench_signatures (items : list (list U)) : res (list (list N)) :=
  mapM (create_signature MinHasher32 hash (new_with_hasher draws 250)) items.

(** lsh_bench.rs:56-61: the scan. *)
Definition minhash_scan (first : list N) (sigs : list (list N)) : res (option f64) :=
  sims ← mapM (compute_minhash_similarity first) sigs;
  max_by_unwrap f64_partial_cmp sims.

(** lsh_bench.rs:34-70 [minhash_million_items_most_similar]: the results of the scan and of the
    query; [Panic] if an assertion or an [unwrap] fails. *)
Definition bench_minhash (items : list (list U)) : res (option f64 * (Z * f64)) :=
  sigs ← bench_signatures items;
  let r := par_bulk_insert (container KHashSet Z) bh sched (bench_ids (length items)) sigs
             (new_index (container KHashSet Z) 50 5 bench_threshold) in
  match r.2 with
  | OPanic => Panic
  | _ =>
      first ← head sigs;
      brute ← minhash_scan first sigs;
      one ← query_one (container KHashSet Z) bh order r.1 first;
      match one with
      | Some p => Ok (brute, p)
      | None => Panic
      end
  end.
End MinHash.

Section SimHash.
Context (hash : U -> N).
Context (order : gset Z -> list Z) (sched : list nat).

(** lsh_bench.rs:96-101: the scan; [max_by]. *)
Definition simhash_scan (first : N) (sigs : list N) : option nat :=
  max_by Nat.compare (hamming_distance first <$> sigs).

(** lsh_bench.rs:73-110 [simhash_million_items_most_similar] for any width, number of blocks
    and distance. *)
Definition simhash_run (W blocks distance : nat) (items : list (list U)) : res (option nat * (Z * nat)) :=
  sigs ← mapM (SimHash.create_signature W W hash) items;
  m0 ← sindex_new W blocks distance;
  let m := spar_bulk_insert sched (bench_ids (length items)) sigs m0 in
  first ← head sigs;
  one ← squery_one order m first;
  match one with
  | Some p => Ok (simhash_scan first sigs, p)
  | None => Panic
  end.

(** lsh_bench.rs:74, 90: the numbers; [hash] is [SimSipHasher128]. *)
Definition bench_simhash : list (list U) -> res (option nat * (Z * nat)) := simhash_run 128 12 9.
End SimHash.
End Bench.
