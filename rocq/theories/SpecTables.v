(** Vocabulary of C107: the tables of a simhash index. *)
From stdpp Require Import base list gmap.
From Coq Require Import NArith.
From Verif Require Import Permutation SimHashIndex SpecSimHash SpecTuples.
Local Open Scope nat_scope.

(** All insertions of a history, in order. *)
Definition inserted {Id} (o : sop Id) : list (Id * N) :=
  match o with
  | SInsert id s => [(id, s)]
  | SParBulkInsert _ ids sigs => zip ids sigs
  | SParBulkInsertPairs _ ps => ps
  end.
Definition insertions {Id} (ops : list (sop Id)) : list (Id * N) := concat (inserted <$> ops).

(** In how many of the [nb] blocks all bits of [x] and [y] are equal. *)
Definition same_block (W nb : nat) (x y : N) (i : nat) : Prop :=
  Forall (fun j => bit x j = bit y j) (seq (i * W / nb) ((i + 1) * W / nb - i * W / nb)).
Global Instance same_block_dec W nb x y i : Decision (same_block W nb x y i).
Proof. unfold same_block. apply _. Defined.
Definition same_blocks (W nb : nat) (x y : N) : nat := length (filter (same_block W nb x y) (seq 0 nb)).

(** The ids that a query looks at in a table; each one costs a distance. *)
Definition looked_at {Id} (q : N) (t : table Id) : list Id :=
  default [] (t_table t !! N.land q (simple_mask (t_perm t))).
Definition comparisons {Id} `{Countable Id} (m : sindex Id) (q : N) : nat :=
  sum_list ((fun t => length (looked_at q t)) <$> hash_tables m).
