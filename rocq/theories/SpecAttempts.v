(** Vocabulary of C109: the clusters that a thread of the parallel clusterer holds. *)
From stdpp Require Import base list gmap.
From Coq Require Import NArith.
From Verif Require Import Base ParallelClusterer.
Local Open Scope nat_scope.

(** The cluster of the attempt under way. *)
Definition attempt {P} (x : pc P) : option N :=
  match x with
  | Check a _ _ _ | Undo a _ _ _ | Assign a _ _ _ | Conflict1 a _ _ _ _ _ | Conflict2 a _ _ _ _ _
  | Conflict3 a _ _ _ _ _ | Conflict4 a _ _ _ _ _ | Fail a _ | Commit a _ => Some a
  | _ => None
  end.
(** A thread holds the clusters it has made and the one it is trying to make. *)
Definition has_cluster {P} (t : thread P) (a : N) : Prop :=
  (exists own, (a, own) ∈ clusters t) \/ attempt (at_pc t) = Some a.
(** The thread is over. *)
Definition over {P} (t : thread P) : Prop := at_pc t = Done \/ at_pc t = Panicked.
