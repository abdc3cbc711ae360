(** Model of the default token hash of the minhashers. Definitions only.

    [MinHasher32::new], [MinHasher16::new], [MinHasher8::new] (min_hasher.rs:30-34) and
    [MinHasher64V1::new] (min_hasher64.rs:22-31) hash tokens with [FnvBuildHasher]: each token is
    written to a fresh [FnvHasher] and [finish] returns its state. The string index
    (string_index.rs:16) and the Python MinHash classes (py-gaoya min_hash.rs:236-251) do the same.
    The code of [FnvHasher] is that of the crate fnv 1.0.7 (lib.rs: [Default] and
    [Hasher::write]). A token is a [&str] or [String], given by its bytes; their [Hash] writes the
    bytes and then the byte 255. *)
From stdpp Require Import base list.
From Coq Require Import NArith.
From Verif Require Import Base MinHasher.
Local Open Scope N_scope.

(** fnv, [FnvHasher::default]: the state 0xcbf29ce484222325. *)
Definition fnv_default : N := 14695981039346656037.

(** fnv, [FnvHasher::write]: for each byte, [hash ^ byte], then [wrapping_mul(0x100000001b3)]. *)
Definition fnv_byte (hash byte : N) : N := wrapping_mul u64 (N.lxor hash byte) 1099511628211.
Definition fnv_write (hash : N) (bytes : list N) : N := foldl fnv_byte hash bytes.

(** min_hasher.rs:72-76 and min_hasher64.rs:96-100: [build_hasher()], [item.hash(&mut hasher)],
    [finish()] for a string token; [str::hash] is [write(bytes)] and [write_u8(0xff)]. *)
Definition hash_str (token : list N) : N := fnv_write (fnv_write fnv_default token) [255].
