(** Vocabulary of C110: the caller drops clusters that an earlier call returned. *)
From stdpp Require Import base list gmap.
From Coq Require Import NArith.
From Verif Require Import Base ParallelClusterer.
Local Open Scope nat_scope.

(** The two memories have the same pointers and the same counter; the clusters in memory may be
    different ones. *)
Definition same_pointers {P} `{Countable P} (m m' : memory P) : Prop :=
  cells m = cells m' /\ sequence m = sequence m'.
(** Pointers of points are those of clusters made earlier, which may have been dropped since. *)
Definition issued {P} `{Countable P} (m : memory P) : Prop :=
  forall p a, cells m !! p = Some a -> (a <= sequence m)%N.
(** The memory after the clusters with these ids are dropped. *)
Definition after_drop {P} `{Countable P} (dropped : list N) (m : memory P) : memory P :=
  Memory (cells m)
    (map_imap (fun a b => Some (if decide (a ∈ dropped) then Box (state b) true else b)) (boxes m)) (sequence m).
