(** Histories in which bulk insertions may have been stopped half-way by a signature that is too
    short: what every band then keeps of the pairs.  Nothing here refers to bands, buckets or
    schedules of the model. *)
From stdpp Require Import base list gmap.
From Coq Require Import NArith.
From Verif Require Import Base Float Container MinHashIndex SpecIndex SpecHistory.

Section Spec.
Context {T : Type} `{!EqDecision T}.
Context {Id : Type} `{Countable Id}.

(** The pairs of a bulk insertion that starts to insert and meets a signature that is too
    short. *)
Definition stopped (n : nat) (o : op Id T) : option (list (Id * list T)) :=
  match o with
  | ParBulkInsert _ ids (s0 :: sigs) =>
      if decide (length s0 = n) then
        if pairs_too_short n (zip ids (s0 :: sigs)) then Some (zip ids (s0 :: sigs)) else None
      else None
  | ParBulkInsertPairs _ ps => if pairs_too_short n ps then Some ps else None
  | _ => None
  end.

(** How many pairs can be inserted in band [i], one after the other. *)
Fixpoint reach (bw i : nat) (ps : list (Id * list T)) : nat :=
  match ps with
  | [] => 0
  | p :: ps' => if decide ((i + 1) * bw <= length p.2) then S (reach bw i ps') else 0
  end.

(** A call together with the number of pairs that band [i] keeps if the call is stopped: no
    band gets further than it can, and at least one has met its signature that is too short. *)
Definition call : Type := op Id T * (nat -> nat).
Definition legit (nb bw : nat) (c : call) : Prop :=
  match stopped (nb * bw) c.1 with
  | None => True
  | Some ps => (forall i, i < nb -> c.2 i <= reach bw i ps) /\
      exists i, i < nb /\ c.2 i = reach bw i ps /\ reach bw i ps < length ps
  end.

Section OneKey.
Variables (k : container_kind) (bh : list T -> N) (n bw i : nat) (key : N) (x : Id).
Definition kept_step (m : gmap Id (list T)) (c : nat) (o : call) : nat :=
  match stopped n o.1 with
  | Some ps => foldl (note k bh bw i key x) c (take (o.2 i) ps)
  | None => marks_step k bh n bw i key x m c o.1
  end.
Fixpoint kept_from (m : gmap Id (list T)) (c : nat) (l : list call) : nat :=
  match l with
  | [] => c
  | o :: l' => kept_from (spec_step n m o.1) (kept_step m c o) l'
  end.
Definition kept (l : list call) : nat := kept_from ∅ 0 l.
End OneKey.

Definition kept_answer (k : container_kind) (bh : list T -> N) (nb bw : nat) (th : f64)
    (l : list call) (q : list T) (x : Id) : Prop :=
  exists s, spec_map (nb * bw) l.*1 !! x = Some s /\ f64_ge (sim s q) th = true /\
    exists i, i < nb /\ 0 < kept k bh (nb * bw) bw i (bh (nth_band bw i q)) x l.

(** An id under a key of the query without an entry in the map. *)
Definition kept_ghost (k : container_kind) (bh : list T -> N) (nb bw : nat)
    (l : list call) (q : list T) (x : Id) : Prop :=
  (exists i, i < nb /\ 0 < kept k bh (nb * bw) bw i (bh (nth_band bw i q)) x l) /\
  spec_map (nb * bw) l.*1 !! x = None.

(** The same calls under possibly other schedules. *)
Definition unscheduled (o : op Id T) : op Id T :=
  match o with
  | ParBulkInsert _ ids sigs => ParBulkInsert [] ids sigs
  | ParBulkInsertPairs _ ps => ParBulkInsertPairs [] ps
  | BulkRemove _ ids => BulkRemove [] ids
  | o => o
  end.

(** The pairs [ps'] repeat what the bands can have kept of [ps]. *)
Definition repeats (nb bw : nat) (ps ps' : list (Id * list T)) : Prop :=
  forall x s i, (x, s) ∈ ps -> i < nb -> (i + 1) * bw <= length s ->
    exists s', (x, s') ∈ ps' /\ nth_band bw i s' = nth_band bw i s.
End Spec.
Arguments call : clear implicits.
