(** Model of the token hash of the Python MinHash classes. Definitions only.

    The classes (py-gaoya min_hash.rs:236-251) use the minhashers with [FnvBuildHasher], as in
    Fnv.v. A token is a str, or a slice of str when word n-grams of a single size are asked for
    (min_hash.rs:84-88). *)
From stdpp Require Import base list.
From Coq Require Import NArith.
From Verif Require Import Base MinHasher Fnv PyTokenizer.
Local Open Scope N_scope.

(** core, [usize::to_ne_bytes] on a 64-bit little-endian machine. *)
Fixpoint le_bytes (n : nat) (x : N) : list N :=
  match n with O => [] | S n' => x mod 256 :: le_bytes n' (x / 256) end.

(** core, [<[T] as Hash>::hash]: [write_usize(len)] and then each element; [str::hash] as in
    Fnv.v. *)
Definition hash_words (ws : list (list N)) : N :=
  foldl (fun h w => fnv_write (fnv_write h w) [255]) (fnv_write fnv_default (le_bytes 8 (N.of_nat (length ws)))) ws.
Definition hash_token (t : token) : N :=
  match t with TStr bytes => hash_str bytes | TWords ws => hash_words ws end.
