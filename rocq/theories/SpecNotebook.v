(** Specification vocabulary for the deduplication notebook. *)
From stdpp Require Import base list gmap.
From Coq Require Import NArith ZArith.
From Verif Require Import Float SpecIndex.

(** Two signatures are reported as duplicates: similar enough, with equal band hashes in some
    band. *)
Definition alike (nb bw : nat) (bh : list N -> N) (th : f64) (s s' : list N) : Prop :=
  f64_ge (sim s s') th = true /\
  exists i, i < nb /\ bh (nth_band bw i s) = bh (nth_band bw i s').

(** Row [i] of the result: the ids of the other rows alike with it, each once. *)
Definition row_of (nb bw : nat) (bh : list N -> N) (th : f64) (ids : list Z) (sigs : list (list N))
    (i : nat) (row : list Z) : Prop :=
  NoDup row /\
  forall j, j ∈ row <-> exists k s s', k <> i /\ ids !! k = Some j /\
    sigs !! i = Some s /\ sigs !! k = Some s' /\ alike nb bw bh th s s'.
