(** Specification vocabulary for the MinHash index: what the calls mean for a plain map from
    ids to signatures.  Nothing here refers to bands, buckets or containers of the model. *)
From stdpp Require Import base list gmap.
From Coq Require Import NArith.
From Verif Require Import Base Float MinHashIndex.

Section Spec.
Context {T : Type} `{!EqDecision T}.
Context {Id : Type} `{Countable Id}.

(** Number of positions at which two signatures agree. *)
Definition agreements (x y : list T) : nat :=
  length (filter (fun i => x !! i = y !! i) (seq 0 (length x))).

(** Similarity of two signatures of the same length as an f64. *)
Definition sim (x y : list T) : f64 :=
  f64_div (f64_of_N (N.of_nat (agreements x y))) (f64_of_N (N.of_nat (length x))).

Definition dist (x y : list T) : f64 := f64_sub f64_one (sim x y).

(** [x] and [y] agree on the whole of band [i]. *)
Definition share_band (bw i : nat) (x y : list T) : Prop :=
  forall j, i * bw <= j < (i + 1) * bw -> x !! j = y !! j.

(** The hashes of band [i]. *)
Definition nth_band (bw i : nat) (x : list T) : list T := take bw (drop (i * bw) x).

(** The band hash sends different bands of a signature to different values. *)
Definition collision_free (bw : nat) (bh : list T -> N) : Prop :=
  forall x y, length x = bw -> length y = bw -> bh x = bh y -> x = y.

(** Effect of a call on the map; [n] is the signature length of the index. A call that panics
    leaves the map unchanged. *)
Definition insert_pairs (ps : list (Id * list T)) (m : gmap Id (list T)) : gmap Id (list T) :=
  list_to_map (reverse ps) ∪ m.

Definition pairs_too_short (n : nat) (ps : list (Id * list T)) : bool :=
  bool_decide (Exists (fun p => length p.2 < n) ps).

Definition bulk_rejected (n : nat) (ids : list Id) (sigs : list (list T)) : bool :=
  match sigs with
  | s0 :: _ => bool_decide (length s0 ≠ n) || pairs_too_short n (zip ids sigs)
  | [] => false
  end.

Definition spec_step (n : nat) (m : gmap Id (list T)) (o : op Id T) : gmap Id (list T) :=
  match o with
  | Insert id s => if decide (length s = n) then <[id := s]> m else m
  | ParBulkInsert _ ids sigs =>
      if bulk_rejected n ids sigs then m else insert_pairs (zip ids sigs) m
  | ParBulkInsertPairs _ ps => if pairs_too_short n ps then m else insert_pairs ps m
  | Remove id => delete id m
  | BulkRemove _ ids => filter (fun kv => kv.1 ∉ ids) m
  | Clear => ∅
  | ShrinkToFit => m
  | ShrinkTo _ _ => m
  end.

Definition spec_map (n : nat) (ops : list (op Id T)) : gmap Id (list T) :=
  fold_left (spec_step n) ops ∅.

(** The result of [bulk_remove]: signatures of the present ids, first occurrences only. *)
Definition removed_sigs (ids : list Id) (m : gmap Id (list T)) : list (list T) :=
  omap id (imap (fun i x => if decide (x ∈ take i ids) then None else m !! x) ids).

(** What a call returns, as far as the map determines it ([shrink_to] is treated apart). *)
Definition spec_out (n : nat) (m : gmap Id (list T)) (o : op Id T) (r : out T) : Prop :=
  match o with
  | Insert id s => r = if decide (length s = n) then OUnit else OPanic
  | ParBulkInsert _ ids sigs => r = if bulk_rejected n ids sigs then OPanic else OUnit
  | ParBulkInsertPairs _ ps => r = if pairs_too_short n ps then OPanic else OUnit
  | Remove id => r = OSig (m !! id)
  | BulkRemove _ ids => r = OSigs (removed_sigs ids m)
  | Clear => r = OUnit
  | ShrinkToFit => r = OUnit
  | ShrinkTo _ _ => r = OUnit \/ r = OPanic
  end.

(** All signatures currently stored have the index's length (bulk insertion lets longer ones
    in, see C15). *)
Definition well_sized (n : nat) (m : gmap Id (list T)) : Prop :=
  forall id s, m !! id = Some s -> length s = n.

(** Clean histories: no live id is inserted again, bulk insertions have distinct new ids and
    right lengths, bulk removals have distinct live ids. *)
Definition clean_op (n : nat) (m : gmap Id (list T)) (o : op Id T) : Prop :=
  match o with
  | Insert id s => length s = n -> m !! id = None
  | ParBulkInsert _ ids sigs =>
      NoDup (zip ids sigs).*1 /\ Forall (fun p => m !! p.1 = None) (zip ids sigs)
      /\ Forall (fun s => length s = n) sigs
  | ParBulkInsertPairs _ ps =>
      NoDup ps.*1 /\ Forall (fun p => m !! p.1 = None) ps /\ Forall (fun p => length p.2 = n) ps
  | BulkRemove _ ids => NoDup ids /\ Forall (fun id => is_Some (m !! id)) ids
  | _ => True
  end.

Fixpoint clean_from (n : nat) (m : gmap Id (list T)) (ops : list (op Id T)) : Prop :=
  match ops with
  | [] => True
  | o :: ops' => clean_op n m o /\ clean_from n (spec_step n m o) ops'
  end.

Definition clean (n : nat) (ops : list (op Id T)) : Prop := clean_from n ∅ ops.

(** The answer a query should give from the map alone: similar enough, and the band hashes
    coincide in some band. *)
Definition expected_answer (nb bw : nat) (bh : list T -> N) (th : f64)
    (m : gmap Id (list T)) (q : list T) (id : Id) : Prop :=
  exists s, m !! id = Some s /\ f64_ge (sim s q) th = true /\
    exists i, i < nb /\ bh (nth_band bw i s) = bh (nth_band bw i q).

(** The candidates of a query: same without the threshold. *)
Definition candidate (nb bw : nat) (bh : list T -> N)
    (m : gmap Id (list T)) (q : list T) (id : Id) : Prop :=
  exists s, m !! id = Some s /\
    exists i, i < nb /\ bh (nth_band bw i s) = bh (nth_band bw i q).

(** Number of different hashes that band [i] of the stored signatures takes. *)
Definition distinct_keys (bw : nat) (bh : list T -> N) (m : gmap Id (list T)) (i : nat) : nat :=
  length (remove_dups ((fun s => bh (nth_band bw i s)) <$> (map_to_list m).*2)).

(** [order] enumerates a set, in any order. *)
Definition is_order (order : gset Id -> list Id) : Prop :=
  forall s, order s ≡ₚ elements s.

(** [sort] sorts pairs without NaN by the given relation on their numbers. *)
Definition is_sort (le : f64 -> f64 -> bool) (sort : list (Id * f64) -> list (Id * f64)) : Prop :=
  forall l, Forall (fun p => f64_is_nan p.2 = false) l ->
    sort l ≡ₚ l /\
    forall i j a b, i < j -> sort l !! i = Some a -> sort l !! j = Some b -> le a.2 b.2 = true.
End Spec.
