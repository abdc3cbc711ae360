(** Vocabulary of C108: what a query of a MinHash index costs. *)
From stdpp Require Import base list gmap.
From Coq Require Import NArith.
From Verif Require Import Base Container MinHashIndex SpecIndex SpecHistory.
Local Open Scope nat_scope.

Section Spec.
Context {T : Type} `{!EqDecision T}.
Context {Id : Type} `{Countable Id}.

(** The ids that a history offers for insertion. *)
Definition offered (o : op Id T) : list Id :=
  match o with
  | Insert id _ => [id]
  | ParBulkInsert _ ids _ => ids
  | ParBulkInsertPairs _ ps => ps.*1
  | _ => []
  end.
Definition offers (ops : list (op Id T)) : list Id := concat (offered <$> ops).

(** In how many bands two signatures have the same key, and the same hashes. *)
Definition same_keys (bh : list T -> N) (nb bw : nat) (q s : list T) : nat :=
  length (filter (fun i => bh (nth_band bw i s) = bh (nth_band bw i q)) (seq 0 nb)).
Definition same_bands (nb bw : nat) (q s : list T) : nat :=
  length (filter (fun i => nth_band bw i s = nth_band bw i q) (seq 0 nb)).

(** The entries of buckets that a query goes through (minhash_index.rs:157-164, in every band), and the
    similarities that it computes (553-560: one for each candidate with a signature). *)
Definition visits (K : id_container Id) (bh : list T -> N) (m : index (carrier K) Id T) (q : list T) : option nat :=
  (fun ls => sum_list (length <$> ls)) <$> mapM (band_query K bh q) (bands m).
Definition evaluations (K : id_container Id) (bh : list T -> N) (m : index (carrier K) Id T) (q : list T) : option nat :=
  (fun cs : gset Id => length (filter (fun x => is_Some (id_signatures m !! x)) (elements cs))) <$> candidates K bh m q.
End Spec.
