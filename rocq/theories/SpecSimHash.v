(** Specification vocabulary for simhash. *)
From stdpp Require Import base list gmap.
From Coq Require Import NArith.
From Verif Require Import SimHashIndex.

(** Bit [i] of [x]. *)
Definition bit (x : N) (i : nat) : bool := N.testbit x (N.of_nat i).

(** Number of the [W] bits in which [x] and [y] differ. *)
Definition hamming (W : nat) (x y : N) : nat :=
  length (filter (fun i => bit x i ≠ bit y i) (seq 0 W)).

(** Bit [j] lies in block [i] of [nb] blocks. *)
Definition in_block (W nb i j : nat) : Prop := i * W / nb <= j < (i + 1) * W / nb.

(** The stored signature of every id after a history: the last one inserted. *)
Definition sspec_step {Id} `{Countable Id} (m : gmap Id N) (o : sop Id) : gmap Id N :=
  match o with
  | SInsert id s => <[id := s]> m
  | SParBulkInsert _ ids sigs => list_to_map (reverse (zip ids sigs)) ∪ m
  | SParBulkInsertPairs _ ps => list_to_map (reverse ps) ∪ m
  end.
Definition sspec_map {Id} `{Countable Id} (ops : list (sop Id)) : gmap Id N :=
  foldl sspec_step ∅ ops.

(** All signatures of the history fit in [W] bits (they have type [u64] or [u128]). *)
Definition sop_fits {Id} (W : nat) (o : sop Id) : Prop :=
  match o with
  | SInsert _ s => (s < 2 ^ N.of_nat W)%N
  | SParBulkInsert _ _ sigs => Forall (fun s => s < 2 ^ N.of_nat W)%N sigs
  | SParBulkInsertPairs _ ps => Forall (fun p => p.2 < 2 ^ N.of_nat W)%N ps
  end.

(** [sort] sorts by the number. *)
Definition is_sort_by_distance {Id} (sort : list (Id * nat) -> list (Id * nat)) : Prop :=
  forall l, sort l ≡ₚ l /\
    forall i j a b, i < j -> sort l !! i = Some a -> sort l !! j = Some b -> a.2 <= b.2.

(** How many of [hs] have bit [i] equal to [b]. *)
Definition bit_count (b : bool) (i : nat) (hs : list N) : nat :=
  length (filter (fun h => bit h i = b) hs).

(** Sum of the distances from [c], on the first [W] bits. *)
Definition total_distance (W : nat) (c : N) (sigs : list N) : nat :=
  sum_list (hamming W c <$> sigs).
