(** Specification vocabulary for C77: the answers of a scan over all stored signatures, in which
    no band and no hash of a band occurs. *)
From stdpp Require Import base list gmap.
From Coq Require Import NArith.
From Verif Require Import Base Float SpecIndex.

Section Scan.
Context {T : Type} `{!EqDecision T}.
Context {Id : Type} `{Countable Id}.

(** [id] is stored with a signature similar enough to [q]. *)
Definition scan (m : gmap Id (list T)) (th : f64) (q : list T) (id : Id) : Prop :=
  exists s, m !! id = Some s /\ f64_ge (sim s q) th = true.

(** [r] is a stored id of greatest similarity to [q] together with that similarity, or nothing
    if no stored signature is more similar than the threshold. *)
Definition scan_best (m : gmap Id (list T)) (th : f64) (q : list T) (r : option (Id * f64)) : Prop :=
  match r with
  | Some (id, v) => exists s, m !! id = Some s /\ v = sim s q /\ f64_gt v th = true /\
      forall id' s', m !! id' = Some s' -> f64_gt (sim s' q) v = false
  | None => forall id' s', m !! id' = Some s' -> f64_gt (sim s' q) th = false
  end.
End Scan.

(** The similarity of two signatures that differ once in every band of [bw] hashes. *)
Definition band_bound (bw : nat) : f64 :=
  f64_div (f64_of_N (N.of_nat (bw - 1))) (f64_of_N (N.of_nat bw)).

(** The zero signature with the first hash of every band changed. *)
Definition spoilt (nb bw : nat) : list N :=
  mjoin (replicate nb (1%N :: replicate (bw - 1) 0%N)).
