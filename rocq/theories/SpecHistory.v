(** What a history of calls, clean or not, leaves behind for one id: how often the id stands
    under a given key of a given band.  Nothing here refers to bands, buckets or containers of
    the model; only the kind of container is known. *)
From stdpp Require Import base list gmap.
From Coq Require Import NArith.
From Verif Require Import Base Float Container MinHashIndex SpecIndex.

Section Spec.
Context {T : Type} `{!EqDecision T}.
Context {Id : Type} `{Countable Id}.

(** A set remembers an id once; the two vectors remember it once per insertion, and forget it
    once per removal. *)
Definition noted (k : container_kind) (c : nat) : nat :=
  match k with KHashSet => 1 | _ => S c end.
Definition forgotten (k : container_kind) (c : nat) : nat :=
  match k with KHashSet => 0 | _ => pred c end.

Section OneKey.
(** The id [x] in band [i] under [key]; [n] is the signature length. *)
Variables (k : container_kind) (bh : list T -> N) (n bw i : nat) (key : N) (x : Id).

Definition note (c : nat) (p : Id * list T) : nat :=
  if decide (p.1 = x /\ bh (nth_band bw i p.2) = key) then noted k c else c.
Definition forget (c : nat) (p : list T * Id) : nat :=
  if decide (p.2 = x /\ bh (nth_band bw i p.1) = key) then forgotten k c else c.

(** [m] is the map from ids to signatures before the call.  A bulk removal forgets the ids
    under the signatures it found, paired in order (C12). *)
Definition marks_step (m : gmap Id (list T)) (c : nat) (o : op Id T) : nat :=
  match o with
  | Insert id s => if decide (length s = n) then note c (id, s) else c
  | ParBulkInsert _ ids sigs =>
      if bulk_rejected n ids sigs then c else foldl note c (zip ids sigs)
  | ParBulkInsertPairs _ ps => if pairs_too_short n ps then c else foldl note c ps
  | Remove id => match m !! id with Some s => forget c (s, id) | None => c end
  | BulkRemove _ ids => foldl forget c (zip (removed_sigs ids m) ids)
  | Clear => 0
  | ShrinkToFit => c
  | ShrinkTo _ _ => c
  end.

Fixpoint marks_from (m : gmap Id (list T)) (c : nat) (ops : list (op Id T)) : nat :=
  match ops with
  | [] => c
  | o :: ops' => marks_from (spec_step n m o) (marks_step m c o) ops'
  end.
Definition marks (ops : list (op Id T)) : nat := marks_from ∅ 0 ops.
End OneKey.

(** No bulk insertion stopped half-way by a signature that is too short (what it leaves behind
    depends on the schedule, C15). A wrong first signature is refused before any work. *)
Definition whole_op (n : nat) (o : op Id T) : Prop :=
  match o with
  | ParBulkInsert _ ids (s0 :: sigs) =>
      length s0 = n -> pairs_too_short n (zip ids (s0 :: sigs)) = false
  | ParBulkInsertPairs _ ps => pairs_too_short n ps = false
  | _ => True
  end.
Definition whole (n : nat) (ops : list (op Id T)) : Prop := Forall (whole_op n) ops.

(** Single calls, and the single calls that concern the id [x]. *)
Definition single (o : op Id T) : Prop :=
  match o with
  | ParBulkInsert _ _ _ | ParBulkInsertPairs _ _ | BulkRemove _ _ => False
  | _ => True
  end.
Definition concerns (x : Id) (o : op Id T) : bool :=
  match o with
  | Insert id _ => bool_decide (id = x)
  | Remove id => bool_decide (id = x)
  | Clear => true
  | _ => false
  end.
Definition calls_on (x : Id) (ops : list (op Id T)) : list (op Id T) :=
  List.filter (concerns x) ops.

(** The ids whose map entry is there, that are similar enough, and that stand under the key of
    the query in some band. *)
Definition history_answer (k : container_kind) (bh : list T -> N) (nb bw : nat) (th : f64)
    (ops : list (op Id T)) (q : list T) (x : Id) : Prop :=
  exists s, spec_map (nb * bw) ops !! x = Some s /\ f64_ge (sim s q) th = true /\
    exists i, i < nb /\ 0 < marks k bh (nb * bw) bw i (bh (nth_band bw i q)) x ops.
End Spec.
