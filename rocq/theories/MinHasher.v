(** Model of gaoya/src/minhash/min_hasher.rs and min_hasher64.rs. Definitions only.

    External calls are arguments: [hash u] is [hasher.finish()] for a token [u] (a [u64]; the
    [BuildHasher] contract makes it a function of the token), and [draws seed n j] is the [j]-th
    number drawn from [StdRng::seed_from_u64(seed)] when the first [n] draws are made from
    [1..P] and the next [n] from [0..P]. *)
From stdpp Require Import base list.
From Coq Require Import NArith.
From Verif Require Import Base Par Float Similarity.
Local Open Scope N_scope.

(** min_hasher.rs:104 [MERSENNE_PRIME_31 = (1 << 31) - 1]. *)
Definition mersenne_prime_31 : N := 2147483647.
(** min_hasher64.rs:19 [MERSENNE_PRIME = (1 << 61) - 1]. *)
Definition mersenne_prime : N := 2305843009213693951.

(** Wrapping arithmetic of [u32] and [u64]. *)
Definition u32 : N := 4294967296.
Definition u64 : N := 18446744073709551616.
Definition wrapping_mul (m x y : N) : N := (x * y) mod m.
Definition wrapping_add (m x y : N) : N := (x + y) mod m.

(** min_hasher.rs:24-29 and min_hasher64.rs:12-17: the coefficients and [num_hashes]. The four
    hasher types have the same fields. *)
Record hasher := Hasher { coef_a : list N; coef_b : list N; num_hashes : nat }.

(** min_hasher.rs:42-56 / min_hasher64.rs:40-54 [new_with_hasher_and_seed]. *)
Definition new_with_hasher_and_seed (draws : N -> nat -> nat -> N) (n : nat) (seed : N) : hasher :=
  Hasher (draws seed n <$> seq 0 n) (draws seed n <$> seq n n) n.

(** min_hasher.rs:31-40 / min_hasher64.rs:21-38 [new], [new_with_hasher]: seed 3. *)
Definition new_with_hasher (draws : N -> nat -> nat -> N) (n : nat) : hasher :=
  new_with_hasher_and_seed draws n 3.

Section Signature.
Context {U : Type} (hash : U -> N).

(** min_hasher.rs:80-85: the hash of a token at the position with coefficients [ab]. *)
Definition hash_at_32 (ab : N * N) (h : N) : N :=
  wrapping_add u32 (wrapping_mul u32 h ab.1) ab.2 mod mersenne_prime_31.

(** min_hasher.rs:66-97 [create_signature]; [ty] is 2^32, 2^16 or 2^8 for MinHasher32, 16, 8
    ([h as $type] truncates). [unwrap] panics on an empty list. *)
Definition create_signature_32 (ty : N) (m : hasher) (items : list U) : res (list N) :=
  let hashes := (fun u => hash u mod u32) <$> items in
  if (0 <? length hashes)%nat then
    mapM (fun ab => h ← min_by N.compare (hash_at_32 ab <$> hashes); Ok (h mod ty))
      (zip (coef_a m) (coef_b m))
  else Ok (replicate (num_hashes m) 0).

(** min_hasher64.rs:111. *)
Definition hash_at_64 (ab : N * N) (h : N) : N :=
  wrapping_add u64 (wrapping_mul u64 h ab.1) ab.2 mod mersenne_prime.

(** min_hasher64.rs:90-119 [create_signature]. *)
Definition create_signature_64 (m : hasher) (items : list U) : res (list N) :=
  let hashes := hash <$> items in
  if (0 <? length hashes)%nat then
    mapM (fun ab => min_by N.compare (hash_at_64 ab <$> hashes)) (zip (coef_a m) (coef_b m))
  else Ok (replicate (num_hashes m) 0).

(** min_hasher64.rs:61-87 [get_min_hashes_into_vec] (private and unused): the result is the
    new content of [ret]; [self.a[index]] is a checked access. *)
Definition get_min_hashes_into_vec (m : hasher) (items : list U) (ret : list N) : res (list N) :=
  if decide (num_hashes m = length ret) then
    let hashes := hash <$> items in
    if decide (hashes ≠ []) then
      mapM (fun index => a ← coef_a m !! index; b ← coef_b m !! index;
                         min_by N.compare (hash_at_64 (a, b) <$> hashes))
        (seq 0 (length ret))
    else Ok ret
  else Panic.
End Signature.

(** The four hashers; [width] is the bit width of [V]. *)
Inductive hasher_kind := MinHasher32 | MinHasher16 | MinHasher8 | MinHasher64V1.
Definition width (k : hasher_kind) : N :=
  match k with MinHasher32 => 32 | MinHasher16 => 16 | MinHasher8 => 8 | MinHasher64V1 => 64 end.
(** min_hasher.rs:108-110: the macro instances, and MinHasher64V1. *)
Definition create_signature {U} (k : hasher_kind) (hash : U -> N) (m : hasher) (items : list U)
  : res (list N) :=
  match k with
  | MinHasher64V1 => create_signature_64 hash m items
  | _ => create_signature_32 hash (2 ^ width k) m items
  end.

(** minhash/mod.rs:54-63 [bulk_create_signature] and 65-74 [bulk_create_signature_refs]. *)
Definition bulk_create_signature {U} (k : hasher_kind) (hash : U -> N) (sched : list nat)
    (m : hasher) (batch : list (list U)) : res (list (list N)) :=
  par_map (create_signature k hash m) sched batch.

(** minhash/mod.rs:77-84 [compute_similarity]. *)
Definition compute_similarity {U} (k : hasher_kind) (hash : U -> N) (m : hasher)
    (xs ys : list U) : res f64 :=
  s1 ← create_signature k hash m xs;
  s2 ← create_signature k hash m ys;
  compute_minhash_similarity s1 s2.
