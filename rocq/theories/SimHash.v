(** Model of gaoya/src/simhash/sim_hash.rs. Definitions only. [hash] is [SimHasher::hash] of a
    token. The [i64]/[u64] counters are assumed not to overflow. *)
From stdpp Require Import base list.
From Coq Require Import NArith ZArith.
From Verif Require Import Base SimHashBits.

(** sim_hash.rs:38-45: one hash added to the counters. *)
Fixpoint add_hash (h : N) (counts : list Z) : list Z :=
  match counts with
  | [] => []
  | c :: counts' =>
      (if (N.land h 1 =? 0)%N then c + 1 else c - 1)%Z :: add_hash (N.shiftr h 1) counts'
  end.

(** sim_hash.rs:48-53 and 71-76: a bit for every index that passes the test. *)
Definition collect_bits (W L : nat) (test : nat -> bool) : res N :=
  foldl (fun acc i => r ← acc;
                      if test i then b ← shl W 1 i; Ok (N.lor r b) else Ok r)
    (Some 0%N) (seq 0 L).

(** sim_hash.rs:30-55 [create_signature]; [L] is the const parameter of [SimHash]. *)
Definition create_signature {U} (W L : nat) (hash : U -> N) (items : list U) : res N :=
  let counts := foldl (fun cs u => add_hash (hash u) cs) (replicate L 0%Z) items in
  collect_bits W L (fun i => (0 <? nth i counts 0%Z)%Z).

(** sim_hash.rs:64-68: the inner loop; [signature >> i & 1]. *)
Definition count_bits (W : nat) (sig : N) (counts : list nat) : res (list nat) :=
  mapM (fun p => b ← shr W sig p.1; Ok (if (N.land b 1 =? 1)%N then p.2 + 1 else p.2))
    (imap pair counts).

(** sim_hash.rs:57-78 [create_centroid]. *)
Definition create_centroid (W L : nat) (sigs : list N) : res N :=
  counts ← foldl (fun acc s => cs ← acc; count_bits W s cs) (Some (replicate L 0)) sigs;
  collect_bits W L (fun i => (length sigs / 2 <? nth i counts 0)%nat).
