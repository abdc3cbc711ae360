(** Model of the centroid functions of gaoya/src/minhash/mod.rs and minhash_index.rs.
    Definitions only. *)
From stdpp Require Import base list gmap.
From Coq Require Import NArith.
From Verif Require Import Base Float Container MinHashIndex.

(** A [HashMap<K, usize>] as an association list with distinct keys. Its iteration order is the
    argument [order] below. *)
Notation counter K := (list (K * nat)) (only parsing).

Section Counter.
Context {K : Type} `{!EqDecision K}.

(** [let count = c.entry(k).or_insert(1); *count += 1;] *)
Fixpoint bump (k : K) (c : counter K) : counter K :=
  match c with
  | [] => [(k, 1 + 1)]
  | (k', n) :: c' => if decide (k = k') then (k', n + 1) :: c' else (k', n) :: bump k c'
  end.

(** [counters[i]] followed by [bump]; an index out of range panics. *)
Definition bump_at (cs : list (counter K)) (i : nat) (k : K) : res (list (counter K)) :=
  c ← cs !! i; Ok (<[i := bump k c]> cs).

(** [counter.into_iter().max_by(|x, y| x.1.cmp(&y.1)).unwrap().0] *)
Definition most_frequent (order : counter K -> counter K) (c : counter K) : res K :=
  fst <$> max_by (fun x y => Nat.compare x.2 y.2) (order c).

(** The loop over the counters; [order i] is the iteration order of the [i]-th map. *)
Definition most_frequent_all (order : nat -> counter K -> counter K) (cs : list (counter K))
  : res (list K) :=
  mapM (fun p => most_frequent (order p.1) p.2) (imap pair cs).
End Counter.

(** [for x in l { body }] where the body may panic. *)
Fixpoint try_fold {A S} (f : S -> A -> res S) (s : S) (l : list A) : res S :=
  match l with
  | [] => Ok s
  | x :: l' => s' ← f s x; try_fold f s' l'
  end.

Section Centroid.
Context {T : Type} `{!EqDecision T}.

(** minhash/mod.rs:171-174 and 224-227: the loop over one signature. *)
Definition count_hashes (cs : list (counter T)) (sig : list T) : res (list (counter T)) :=
  try_fold (fun cs p => bump_at cs p.1 p.2) cs (imap pair sig).

(** minhash/mod.rs:163-186 [minhash_centroid] and 216-238 [minhash_centroid_from_refs] (the
    same text on references). [signatures[0]] panics on an empty slice. *)
Definition minhash_centroid (order : nat -> counter T -> counter T) (sigs : list (list T))
  : res (list T) :=
  s0 ← sigs !! 0;
  cs ← try_fold count_hashes (replicate (length s0) []) sigs;
  most_frequent_all order cs.

(** minhash/mod.rs:198-202: the loop over the bands of one signature. *)
Definition count_bands (num_bands band_size : nat) (cs : list (counter (list T)))
    (sig : list T) : res (list (counter (list T))) :=
  try_fold (fun cs i => b ← slice sig (i * band_size) ((i + 1) * band_size); bump_at cs i b)
    cs (seq 0 num_bands).

(** minhash/mod.rs:188-214 [minhash_band_centroid_from_refs]. *)
Definition minhash_band_centroid_from_refs (order : nat -> counter (list T) -> counter (list T))
    (sigs : list (list T)) (num_bands band_size : nat) : res (list T) :=
  cs ← try_fold (count_bands num_bands band_size) (replicate num_bands []) sigs;
  bs ← most_frequent_all order cs;
  Ok (concat bs).

(** minhash_index.rs:746-753 [calculate_centroid]. *)
Definition calculate_centroid {C Id} `{Countable Id}
    (order : nat -> counter (list T) -> counter (list T)) (m : index C Id T) (ids : list Id)
  : res (list T) :=
  minhash_band_centroid_from_refs order (omap (fun id => id_signatures m !! id) ids)
    (idx_b m) (idx_r m).
End Centroid.
