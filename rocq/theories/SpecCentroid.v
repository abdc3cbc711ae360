(** Specification vocabulary for centroids. *)
From stdpp Require Import base list.
From Verif Require Import SpecIndex.

(** How often [x] occurs in [l]. *)
Definition occurrences {K} `{!EqDecision K} (x : K) (l : list K) : nat :=
  length (filter (fun y => y = x) l).

(** [x] is a most frequent element of [l]. *)
Definition is_mode {K} `{!EqDecision K} (x : K) (l : list K) : Prop :=
  x ∈ l /\ forall y, occurrences y l <= occurrences x l.

(** Number of bands on which [x] and [y] agree. *)
Definition band_agreements {T} `{!EqDecision T} (nb bw : nat) (x y : list T) : nat :=
  length (filter (fun i => nth_band bw i x = nth_band bw i y) (seq 0 nb)).

(** [order] enumerates the entries of a map, in any order. *)
Definition is_map_order {E} (order : nat -> list E -> list E) : Prop :=
  forall i l, order i l ≡ₚ l.
