(** Model of the SuperMinHash variants as they are used: the default methods of the trait
    [MinHasher] and the unit tests of super_min_hash.rs. Definitions only.

    The token hash is FNV (Fnv.v), the generator that of Rng.v; [fuel] bounds the rounds of each
    draw. *)
From stdpp Require Import base list.
From Coq Require Import NArith Ascii String.
From Verif Require Import Base Par Float Similarity SuperMinHash Fnv Rng Jaccard Text.

(** super_min_hash.rs:17-19 and 67-69 [new], 37-58 and 81-135 [create_signature] of a list of strings. *)
Definition std_v1 (fuel m : nat) (tokens : list (list N)) : res (list N) :=
  v1_create_signature (std_shuffle fuel) (std_unit1 fuel) m (hash_str <$> tokens).
Definition std_v2 (fuel m : nat) (tokens : list (list N)) : res (list N) :=
  v2_create_signature (std_unit2 fuel) (std_pick fuel) m (hash_str <$> tokens).

(** minhash/mod.rs:54-63 [bulk_create_signature] and 65-74 [bulk_create_signature_refs]. *)
Definition super_bulk {U} (create : list U -> res (list N)) (sched : list nat) (batch : list (list U))
  : res (list (list N)) := par_map create sched batch.

(** minhash/mod.rs:77-84 [compute_similarity]. *)
Definition super_similarity {U} (create : list U -> res (list N)) (xs ys : list U) : res f64 :=
  s1 ← create xs; s2 ← create ys; compute_minhash_similarity s1 s2.

(** super_min_hash.rs:144-149: the strings of the tests, as bytes. *)
Definition text (s : string) : list N := N_of_ascii <$> list_ascii_of_string s.
Definition S1 : list N := text "local sensitive hashing is cool".
Definition S3 : list N := text "local sensitive hashing is awesome".
Definition S10 : list N := text "If you're still searching, we can visit a few open houses together in the next few weeks. It might help give clarity on what you're looking for. What do you think? - Gail's assistant w/eXp Realty".
Definition S11 : list N := text "If you're still searching, we can visit a few open houses together in the next few weeks. It might help give clarity on what you're looking for. What do you think? - Elle's assistant w/Bright Birch Real Estate".

(** [x as f32]. *)
Definition narrow (x : f64) : f32 :=
  match x with
  | S754_finite s m e => binary_round 24 128 s m e
  | x => x
  end.
(** [f32::abs(x - y) < 0.15]. *)
Definition within (x y : f32) : bool := SFltb (SFabs (f32_sub x y)) (f32_div (f32_of_N 15) (f32_of_N 100)).

(** super_min_hash.rs:152-166 [test_min_hash]: whether the two assertions hold. *)
Definition test_min_hash (create : list (list N) -> res (list N)) : res (bool * bool) :=
  let split := whitespace_split in
  similarity ← super_similarity create (split S10) (split S11);
  estimated ← super_similarity create (split S1) (split S3);
  Ok (within (narrow similarity) (f32_div (f32_of_N 3) (f32_of_N 4)),
      within (narrow estimated) (compute_jaccard_similarity (split S1) (split S3))).

(** super_min_hash.rs:168-172 [test_super_min_hash_v1] and 174-178 [test_super_min_hash_v2]. *)
Definition test_super_min_hash_v1 (fuel : nat) : res (bool * bool) := test_min_hash (std_v1 fuel 128).
Definition test_super_min_hash_v2 (fuel : nat) : res (bool * bool) := test_min_hash (std_v2 fuel 128).
