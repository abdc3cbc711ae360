(** The random unit test sim_hash_index.rs:257-295 as a function of the numbers it draws (C81). *)
From stdpp Require Import base list gmap.
From Coq Require Import NArith.
From Verif Require Import Base SimHashBits SimHash SimHashIndex Hashers Digests SpecSimHash SpecTuples.
Local Open Scope nat_scope.

(** [i32::to_le_bytes] of a number that is not negative; the elements of the documents are [i32]. *)
Fixpoint le_bytes (n : nat) (x : N) : list N :=
  match n with O => [] | S n' => (x mod 256)%N :: le_bytes n' (x / 256)%N end.
Definition int_hash (x : N) : N := sip_hasher64_hash sip64 5 6 [le_bytes 4 x].

(** The document, and the copies with one element replaced: [s = (index, value)]. *)
Definition document : list N := N.of_nat <$> seq 1 20.
Definition changed (s : nat * N) : list N := <[s.1 := s.2]> document.
Definition sample_ok (s : nat * N) : Prop := s.1 < 20 /\ (1 <= s.2 < 1000)%N.
Definition all_samples : list (nat * N) := seq 0 20 ≫= fun i => pair i <$> (N.of_nat <$> seq 1 999).

Definition signature (doc : list N) : res N := create_signature 64 64 int_hash doc.

(** [Some b]: the test comes to its end and [b] is the result of the comparison; [None]: an
    [unwrap] panics. [order] is the iteration order of the set in [query_one]. *)
Definition index_test (order : gset N -> list N) (samples : list (nat * N)) : res bool :=
  m ← sindex_new 64 8 6;
  sigs ← mapM (fun s => signature (changed s)) samples;
  let pairs := imap (fun i sig => (N.of_nat i, sig)) sigs in
  let m := foldl (fun m p => sinsert p.1 p.2 m) m pairs in
  target ← signature document;
  expected ← min_by (fun x y => Nat.compare x.2 y.2) ((fun p => (p.1, hamming_distance p.2 target)) <$> pairs);
  found ← squery_one order m target;
  found ← found;
  Ok (expected.2 =? found.2).

(** The distance of the changed copy from the document. *)
Definition sample_distance (s : nat * N) : nat :=
  hamming 64 (default 0%N (signature document)) (default 0%N (signature (changed s))).
