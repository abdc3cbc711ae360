(** Model of gaoya/src/minhash/hashers.rs, gaoya/src/simhash/sim_hasher.rs and the bit extraction
    of gaoya/src/simhash/mod.rs. Definitions only.

    The digests are external: [sha1 bytes] is the 20-byte SHA-1 digest, [sip k1 k2 bytes] and
    [sip128 k1 k2 bytes] are the results of the siphasher crate for the bytes written (its [write]
    is a stream, so only the concatenation matters: C80, where both are modelled, in Digests.v). A token is represented by the list of byte
    strings its [Hash] implementation writes. *)
From stdpp Require Import base list.
From Coq Require Import NArith.
From Verif Require Import Base SimHashBits.
Local Open Scope N_scope.

(** [u64::from_be_bytes]. *)
Definition from_be_bytes (l : list N) : N := foldl (fun acc b => acc * 256 + b) 0 l.

Section Hashers.
Context (sha1 : list N -> list N).
Context (sip sip128 : N -> N -> list N -> N).

(** hashers.rs:17-25: [Sha1Hasher], [new]; 41-45 [default]. *)
Record sha1_hasher := Sha1Hasher { sha_bytes : list N }.
Definition sha1_new : sha1_hasher := Sha1Hasher [].
(** hashers.rs:35-37 [write]. *)
Definition sha1_write (s : sha1_hasher) (bytes : list N) : sha1_hasher := Sha1Hasher (sha_bytes s ++ bytes).
(** hashers.rs:28-33 [finish]: the first 8 bytes of the digest; slicing a shorter one would
    panic. *)
Definition sha1_finish (s : sha1_hasher) : res N :=
  d ← slice (sha1 (sha_bytes s)) 0 8;
  Ok (from_be_bytes d).

(** sim_hasher.rs:42-62 [ShaHasher64::hash]. *)
Definition sha_hasher64_hash (writes : list (list N)) : res N :=
  sha1_finish (foldl sha1_write sha1_new writes).
(** sim_hasher.rs:14-40 [SimSipHasher64]. *)
Definition sip_hasher64_hash (key1 key2 : N) (writes : list (list N)) : N := sip key1 key2 (concat writes).
(** sim_hasher.rs:64-90 [SimSipHasher128]. *)
Definition sip_hasher128_hash (key1 key2 : N) (writes : list (list N)) : N := sip128 key1 key2 (concat writes).
End Hashers.

(** simhash/mod.rs:67-69 [to_u32_high_bits] and 72-74 [to_u64_high_bits], for the widths 64 and
    128; [as] truncates. *)
Definition to_u32_high_bits (W : nat) (x : N) : res N := y ← shr W x (W - 32); Ok (y mod 2 ^ 32).
Definition to_u64_high_bits (W : nat) (x : N) : res N := y ← shr W x (W - 64); Ok (y mod 2 ^ 64).
