(** What the private helper functions should return, for C86. *)
From stdpp Require Import base list gmap.
From Coq Require Import NArith.
From Verif Require Import Base SimHashIndex.

(** The signatures inserted by a history, in order, repeated ids included. *)
Definition sop_sigs {Id} (o : sop Id) : list N :=
  match o with
  | SInsert _ s => [s]
  | SParBulkInsert _ ids sigs => take (length ids) sigs
  | SParBulkInsertPairs _ ps => ps.*2
  end.
Definition inserted {Id} (ops : list (sop Id)) : list N := ops ≫= sop_sigs.

(** How many different values the signatures take on the bits of [mask]. *)
Definition distinct_on (mask : N) (sigs : list N) : nat :=
  length (remove_dups ((fun s => N.land s mask) <$> sigs)).
