(** The life of one id: what the calls say about it, in order, and which of its insertions are
    never undone.  Nothing here refers to bands, buckets, containers or maps of the model; only
    the kind of container is known. *)
From stdpp Require Import base list gmap.
From Coq Require Import NArith ZArith.
From Verif Require Import Base Text Float Container MinHashIndex SpecIndex StringIndex PyTokenizer PyMinHash SpecPy.

Section Life.
Context {A : Type}.
(** [Some a]: stored with [a]; [None]: removed. *)
Implicit Types (l : list (option A)).

(** Vectors: an insertion is undone by a removal that is the very next event. *)
Fixpoint left_over l : list A :=
  match l with
  | [] => []
  | None :: l' => left_over l'
  | Some a :: l' =>
      match l' with
      | None :: l'' => left_over l''
      | _ => a :: left_over l'
      end
  end.

(** Sets: an insertion under a key is undone by a later removal that follows directly an
    insertion under that key. *)
Definition outlives (hit : A -> Prop) l : Prop :=
  exists j a, l !! j = Some (Some a) /\ hit a /\
    forall r a', j <= r -> l !! r = Some (Some a') -> l !! S r = Some None -> ~ hit a'.

Definition remains (k : container_kind) (hit : A -> Prop) l : Prop :=
  match k with
  | KHashSet => outlives hit l
  | _ => exists a, a ∈ left_over l /\ hit a
  end.

(** What is stored now. *)
Definition now l : option A := mjoin (last l).
End Life.

Section Rust.
Context {T : Type} `{!EqDecision T}.
Context {Id : Type} `{Countable Id}.

(** The events of a call for the id [x]; [n] is the signature length. *)
Definition pairs_of (x : Id) (ps : list (Id * list T)) : list (option (list T)) :=
  Some <$> (filter (fun p => p.1 = x) ps).*2.
Definition life_step (n : nat) (x : Id) (l : list (option (list T))) (o : op Id T)
  : list (option (list T)) :=
  match o with
  | Insert id s => if decide (length s = n) then l ++ pairs_of x [(id, s)] else l
  | ParBulkInsert _ ids sigs => if bulk_rejected n ids sigs then l else l ++ pairs_of x (zip ids sigs)
  | ParBulkInsertPairs _ ps => if pairs_too_short n ps then l else l ++ pairs_of x ps
  | Remove id => if decide (id = x) then l ++ [None] else l
  | Clear => []
  | BulkRemove _ _ | ShrinkToFit | ShrinkTo _ _ => l
  end.
(** Since the last [clear]. *)
Definition life (n : nat) (x : Id) (ops : list (op Id T)) : list (option (list T)) :=
  fold_left (life_step n x) ops [].

(** No bulk removals (they mix up the ids, C12). *)
Definition no_bulk_remove (o : op Id T) : Prop :=
  match o with BulkRemove _ _ => False | _ => True end.

(** The signatures that meet the query in band [i]. *)
Definition meets (bh : list T -> N) (bw i : nat) (q s : list T) : Prop :=
  bh (nth_band bw i s) = bh (nth_band bw i q).
(** [x] is found by [q] in some band. *)
Definition haunts (k : container_kind) (bh : list T -> N) (nb bw : nat)
    (l : list (option (list T))) (q : list T) : Prop :=
  exists i, i < nb /\ remains k (meets bh bw i q) l.
End Rust.

Section Python.
Context (toks : text -> option (list token)).
(** The documents a call stores, up to the first one without tokens. *)
Fixpoint stored (l : list (Z * option (list token))) : list (Z * list token) :=
  match l with
  | (id, Some t) :: l' => (id, t) :: stored l'
  | _ => []
  end.
Definition py_life_step (x : Z) (l : list (option (list token))) (o : py_op)
  : list (option (list token)) :=
  match o with
  | PyRemove id => if decide (id = x) then l ++ [None] else l
  | _ => if batch_raises toks o then l
         else l ++ (Some <$> (filter (fun p => p.1 = x) (stored (asked toks o))).*2)
  end.
Definition py_life (x : Z) (ops : list py_op) : list (option (list token)) :=
  fold_left (py_life_step x) ops [].
End Python.
