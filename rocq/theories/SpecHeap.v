(** Vocabulary of C89: allocations at an address that is still in use. *)
From stdpp Require Import base list gmap.
From Coq Require Import NArith.
From Verif Require Import Base ParallelClusterer HeapClusterer.

(** The addresses a thread remembers at a position. *)
Definition pc_addresses {P} (x : pc P) : list N :=
  match x with
  | Check a _ _ _ | Undo a _ _ _ | Assign a _ _ _ | Fail a _ | Commit a _ => [a]
  | Conflict1 a _ _ _ _ c | Conflict2 a _ _ _ _ c | Conflict3 a _ _ _ _ c | Conflict4 a _ _ _ _ c => [a; c]
  | _ => []
  end.

Section Reuse.
Context {P : Type} `{Countable P}.
Context (query : P -> res (list P)) (min : nat) (checks : bool).

(** The pointer of a point, or a thread, has the address [a]. *)
Definition remembered (s : h_system (P := P)) (a : N) : Prop :=
  (exists p, h_cells (h_mem s) !! p = Some a) \/
  (exists t, t ∈ h_threads s /\ (a ∈ (clusters t).*1 \/ a ∈ pc_addresses (at_pc t))).

(** The next step of a thread allocates at an address that is remembered somewhere. *)
Definition stale_reuse (s : h_system (P := P)) (e : nat * N) : Prop :=
  exists t pts, h_threads s !! e.1 = Some t /\ at_pc t = Alloc pts /\ remembered s (alloc_at e.2 (h_mem s)).

(** No step of the execution does. *)
Definition no_stale_reuse (s : h_system (P := P)) (l : list (nat * N)) : Prop :=
  forall k e, l !! k = Some e -> h_undefined (h_run query min checks s (take k l)) = false ->
    ~ stale_reuse (h_run query min checks s (take k l)) e.
End Reuse.
