(** Model of gaoya/src/minhash/id_container.rs. Definitions only. *)
From stdpp Require Import base list gmap.
From Verif Require Import Base.

(** id_container.rs:20-37: the trait [IdContainer]. [ic_elems] is the sequence of ids that
    [copy_to]/[copy_refs_to] extend the result set with. *)
Record id_container (Id : Type) := IdContainer {
  carrier : Type;
  ic_new : carrier;
  ic_push : Id -> carrier -> carrier;
  ic_len : carrier -> nat;
  ic_elems : carrier -> list Id;
  ic_remove : Id -> carrier -> carrier;
}.
Arguments carrier {Id}.
Arguments ic_new {Id} _.
Arguments ic_push {Id} _.
Arguments ic_len {Id} _.
Arguments ic_elems {Id} _.
Arguments ic_remove {Id} _.

(** id_container.rs:34-36: default method [is_empty]. *)
Definition ic_is_empty {Id} (K : id_container Id) (c : carrier K) : bool :=
  Nat.eqb (ic_len K c) 0.

(** [Vec::swap_remove(i)] for [i] in range: the last element takes the place of element [i]. *)
Definition swap_remove {A} (i : nat) (l : list A) : list A :=
  match last l with
  | Some z => take (length l - 1) (<[i := z]> l)
  | None => l
  end.

Section Containers.
Context {Id : Type} `{Countable Id}.

(** id_container.rs:40-71 [HashSetContainer]: a set. *)
Definition hashset_container : id_container Id := {|
  carrier := gset Id;
  ic_new := ∅;
  ic_push x s := {[ x ]} ∪ s;
  ic_len s := size s;
  ic_elems s := elements s;
  ic_remove x s := s ∖ {[ x ]};
|}.

(** id_container.rs:102-106 and 140-144: [iter().position(|x| x == item)] then
    [swap_remove(index)]. *)
Definition vec_remove (x : Id) (l : list Id) : list Id :=
  match list_find (fun y => y = x) l with
  | Some (i, _) => swap_remove i l
  | None => l
  end.

(** id_container.rs:73-107 [VecContainer]. *)
Definition vec_container : id_container Id := {|
  carrier := list Id;
  ic_new := [];
  ic_push x l := l ++ [x];
  ic_len l := length l;
  ic_elems l := l;
  ic_remove := vec_remove;
|}.

(** id_container.rs:110-145 [SmallVecContainer<N>]: the smallvec crate gives a [SmallVec] the
    behaviour of a [Vec]; where the elements live (inline or heap) is not modelled, so the
    inline capacity [n] is not used. *)
Definition smallvec_container (n : nat) : id_container Id := {|
  carrier := list Id;
  ic_new := [];
  ic_push x l := l ++ [x];
  ic_len l := length l;
  ic_elems l := l;
  ic_remove := vec_remove;
|}.
End Containers.

(** The three containers of the crate. *)
Inductive container_kind := KHashSet | KVec | KSmallVec (n : nat).

Definition container (k : container_kind) (Id : Type) `{Countable Id} : id_container Id :=
  match k with
  | KHashSet => hashset_container
  | KVec => vec_container
  | KSmallVec n => smallvec_container n
  end.
