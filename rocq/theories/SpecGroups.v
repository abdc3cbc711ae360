(** Query indexes whose answers are groups. *)
From stdpp Require Import base list gmap.

(** The answers to any two of the points are the same set, in any order, or have nothing in
    common; each answer contains its point. *)
Definition grouped {P : Type} (query : P -> option (list P)) (points : list P) : Prop :=
  (forall p, p ∈ points -> exists found, query p = Some found /\ NoDup found /\ p ∈ found) /\
  (forall p q f g, p ∈ points -> q ∈ points -> query p = Some f -> query q = Some g ->
     f ≡ₚ g \/ forall x, x ∈ f -> x ∉ g).

(** The lists [own] are exactly the answers to the points of at least [least] elements, each
    once. *)
Definition all_groups {P : Type} (query : P -> option (list P)) (points : list P) (least : nat)
    (own : list (list P)) : Prop :=
  NoDup (concat own) /\
  (forall c, c ∈ own -> exists p, p ∈ points /\ query p = Some c /\ least <= length c) /\
  (forall p f, p ∈ points -> query p = Some f -> least <= length f -> exists c, c ∈ own /\ c ≡ₚ f).

(** The same lists, in another order each and all together. *)
Definition same_groups {P : Type} (own own' : list (list P)) : Prop :=
  exists l, l ≡ₚ own' /\ Forall2 Permutation own l.

(** The lists are exactly the sets of at least [least] ids with one signature that occurs among the
    points. *)
Definition duplicate_groups {P : Type} `{Countable P} {T : Type} `{!EqDecision T} (m : gmap P (list T))
    (points : list P) (least : nat) (own : list (list P)) : Prop :=
  NoDup (concat own) /\
  (forall c, c ∈ own -> exists p s, p ∈ points /\ m !! p = Some s /\ least <= length c /\
     (forall x, x ∈ c <-> m !! x = Some s)) /\
  (forall p s, p ∈ points -> m !! p = Some s -> least <= size (filter (fun kv => kv.2 = s) m) ->
     exists c, c ∈ own /\ p ∈ c).
