(** Vocabulary for the queries with similarities after any history. *)
From stdpp Require Import base list gmap.
From Coq Require Import NArith.
From Verif Require Import Base Float Container MinHashIndex SpecIndex SpecHistory.

Section Spec.
Context {T : Type} `{!EqDecision T}.
Context {Id : Type} `{Countable Id}.

(** The history leaves [x] under the key of the query in some band. *)
Definition met (k : container_kind) (bh : list T -> N) (nb bw : nat)
    (ops : list (op Id T)) (q : list T) (x : Id) : Prop :=
  exists i, i < nb /\ 0 < marks k bh (nb * bw) bw i (bh (nth_band bw i q)) x ops.

(** ... although the map has no entry for [x] any more. *)
Definition ghost (k : container_kind) (bh : list T -> N) (nb bw : nat)
    (ops : list (op Id T)) (q : list T) (x : Id) : Prop :=
  met k bh nb bw ops q x /\ spec_map (nb * bw) ops !! x = None.

(** Single calls in which a live id is only inserted again with the signature it has. *)
Definition same_again_op (n : nat) (m : gmap Id (list T)) (o : op Id T) : Prop :=
  match o with
  | Insert id s => length s = n -> m !! id = None \/ m !! id = Some s
  | ParBulkInsert _ _ _ | ParBulkInsertPairs _ _ | BulkRemove _ _ => False
  | _ => True
  end.
Fixpoint same_again_from (n : nat) (m : gmap Id (list T)) (ops : list (op Id T)) : Prop :=
  match ops with
  | [] => True
  | o :: ops' => same_again_op n m o /\ same_again_from n (spec_step n m o) ops'
  end.
Definition same_again (n : nat) (ops : list (op Id T)) : Prop := same_again_from n ∅ ops.

(** Calls that take nothing out. *)
Definition no_removal (o : op Id T) : Prop :=
  match o with Remove _ | BulkRemove _ _ => False | _ => True end.
End Spec.
