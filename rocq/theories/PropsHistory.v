(** C96: exact answers of the MinHash index after any history, and independence of the ids. *)
From stdpp Require Import base list gmap.
From Coq Require Import NArith.
From Verif Require Import Base Float Container MinHashIndex SpecIndex SpecHistory
  ExampleIndex HistoryFacts.

(** A query answers exactly the ids whose history leaves a mark under one of its keys. *)
Theorem C96_exact {T} `{!EqDecision T} {Id} `{Countable Id}
    (k : container_kind) (bh : list T -> N) (nb bw : nat) (th : f64)
    (ops : list (op Id T)) (q : list T) :
  whole (nb * bw) ops -> well_sized (nb * bw) (spec_map (nb * bw) ops) ->
  length q = nb * bw ->
  exists S, query (container k Id) bh (after k bh nb bw th ops) q = Some S /\
    forall x, x ∈ S <-> history_answer k bh nb bw th ops q x.
Proof. exact (history_exact k bh nb bw th ops q). Qed.

(** The buckets hold each id exactly as often as the history says. *)
Theorem C96_buckets {T} `{!EqDecision T} {Id} `{Countable Id}
    (k : container_kind) (bh : list T -> N) (nb bw : nat) (th : f64)
    (ops : list (op Id T)) (i : nat) b (key : N) (x : Id) :
  whole (nb * bw) ops -> bands (after k bh nb bw th ops) !! i = Some b ->
  length (filter (fun y => y = x)
    (match hash_table b !! key with Some c => ic_elems (container k Id) c | None => [] end)) =
  marks k bh (nb * bw) bw i key x ops.
Proof. exact (bucket_contents k bh nb bw th ops i b key x). Qed.

(** Whether an id is answered depends only on the calls made on that id. *)
Theorem C96_alone {T} `{!EqDecision T} {Id} `{Countable Id}
    (k : container_kind) (bh : list T -> N) (nb bw : nat) (th : f64)
    (ops : list (op Id T)) (q : list T) (x : Id) :
  Forall single ops -> length q = nb * bw ->
  exists S1 S2,
    query (container k Id) bh (after k bh nb bw th ops) q = Some S1 /\
    query (container k Id) bh (after k bh nb bw th (calls_on x ops)) q = Some S2 /\
    (x ∈ S1 <-> x ∈ S2).
Proof. exact (query_alone k bh nb bw th ops q x). Qed.

(** Calls on different ids may be exchanged. *)
Theorem C96_reorder {T} `{!EqDecision T} {Id} `{Countable Id}
    (k : container_kind) (bh : list T -> N) (nb bw : nat) (th : f64)
    (ops ops' : list (op Id T)) (q : list T) :
  Forall single ops -> Forall single ops' ->
  (forall x, calls_on x ops = calls_on x ops') ->
  query (container k Id) bh (after k bh nb bw th ops) q =
  query (container k Id) bh (after k bh nb bw th ops') q.
Proof. exact (query_reorder k bh nb bw th ops ops' q). Qed.

(** The index with hash sets answers no id that the index with vectors does not answer. *)
Theorem C96_set_below_vec {T} `{!EqDecision T} {Id} `{Countable Id}
    (k : container_kind) (bh : list T -> N) (nb bw : nat) (th : f64)
    (ops : list (op Id T)) (q : list T) (S1 S2 : gset Id) :
  k <> KHashSet -> whole (nb * bw) ops -> well_sized (nb * bw) (spec_map (nb * bw) ops) ->
  query (container KHashSet Id) bh (after KHashSet bh nb bw th ops) q = Some S1 ->
  query (container k Id) bh (after k bh nb bw th ops) q = Some S2 -> S1 ⊆ S2.
Proof. exact (set_below_vec k bh nb bw th ops q S1 S2). Qed.

Local Open Scope N_scope.
Global Instance whole_op_dec n (o : op N N) : Decision (whole_op n o).
Proof. destruct o; simpl; try apply _. destruct sigs; apply _. Defined.
Global Instance single_dec (o : op N N) : Decision (single o).
Proof. destruct o; simpl; apply _. Defined.

(** An unclean history: id 1 is inserted three times and removed once, id 2 twice in one call,
    and a bulk removal names the absent id 8 first. *)
Definition unclean_ops : list (op N N) :=
  [ Insert 1 [1;2;3;4]; Insert 1 [1;2;5;6]; Remove 1; Insert 1 [7;7;5;6];
    ParBulkInsertPairs [1;0]%nat [(2,[1;2;9;9]); (2,[1;2;3;4])];
    Insert 3 [1;2;3;4]; BulkRemove [0;1]%nat [8;3]; Insert 3 [1;9;5;6];
    ParBulkInsert [] [4] [[1]]; ShrinkToFit ].

Example C96_example :
  whole 4 unclean_ops /\ well_sized 4 (spec_map 4 unclean_ops) /\ ~ clean 4 unclean_ops /\
  (* under the key of [1;2] in band 0 *)
  map (fun x => marks KVec bhx 4 2 0 (bhx [1;2]) x unclean_ops) [1;2;3;4] = [1;2;1;0]%nat /\
  map (fun x => marks KHashSet bhx 4 2 0 (bhx [1;2]) x unclean_ops) [1;2;3;4] = [0;1;1;0]%nat /\
  elements <$> query (container KVec N) bhx
    (after KVec bhx 2 2 (f64_of_N 0) unclean_ops) [1;2;0;0] = Some [1;3;2] /\
  elements <$> query (container KHashSet N) bhx
    (after KHashSet bhx 2 2 (f64_of_N 0) unclean_ops) [1;2;0;0] = Some [3;2].
Proof.
  split; [apply (bool_decide_unpack _); vm_compute; exact I|].
  split; [apply (bool_decide_unpack _); vm_compute; exact I|].
  split; [apply (bool_decide_unpack _); vm_compute; exact I|].
  vm_compute. auto.
Qed.

Definition swapped_ops : list (op N N) :=
  [ Insert 2 [1;2;9;9]; Insert 1 [1;2;3;4]; Remove 2; Insert 1 [5;6;3;4]; Insert 2 [7;7;7;7] ].
Definition swapped_ops' : list (op N N) :=
  [ Insert 1 [1;2;3;4]; Insert 1 [5;6;3;4]; Insert 2 [1;2;9;9]; Remove 2; Insert 2 [7;7;7;7] ].

Example C96_reorder_example :
  Forall single swapped_ops /\ Forall single swapped_ops' /\
  (forall x, calls_on x swapped_ops = calls_on x swapped_ops') /\
  calls_on 2 swapped_ops = [Insert 2 [1;2;9;9]; Remove 2; Insert 2 [7;7;7;7]] /\
  elements <$> query (container KVec N) bhx
    (after KVec bhx 2 2 (f64_of_N 0) swapped_ops) [1;2;7;7] = Some [1;2].
Proof.
  split; [apply (bool_decide_unpack _); vm_compute; exact I|].
  split; [apply (bool_decide_unpack _); vm_compute; exact I|].
  split; [|vm_compute; auto].
  intros x. unfold calls_on, swapped_ops, swapped_ops'. simpl.
  destruct (decide (1 = x)) as [<-|]; [done|].
  rewrite !(bool_decide_false (1 = x)) by done.
  by destruct (bool_decide (2 = x)).
Qed.

(** A bulk removal that also names another, absent id does not forget the ids that it removes:
    the answers of an id do depend on what the call says about others. *)
Theorem C96_bulk_remove_alone_refuted :
  exists (ops : list (op N N)) (s q : list N),
    spec_map 1 (ops ++ [BulkRemove [] [3;1]]) = spec_map 1 (ops ++ [BulkRemove [] [1]]) /\
    query (container KHashSet N) bhx
      (after KHashSet bhx 1 1 (f64_of_N 0) (ops ++ [BulkRemove [] [3;1]; Insert 1 s])) q <>
    query (container KHashSet N) bhx
      (after KHashSet bhx 1 1 (f64_of_N 0) (ops ++ [BulkRemove [] [1]; Insert 1 s])) q.
Proof.
  exists [Insert 1 [1]], [9], [1]. split.
  - apply map_eq. intros x. destruct (decide (x = 1)) as [->|]; [by vm_compute|].
    vm_compute. done.
  - intros E. apply (f_equal (fmap elements)) in E. vm_compute in E. done.
Qed.

(** The converse of C96_set_below_vec fails (see also C13_container_independent_dirty_refuted). *)
Theorem C96_vec_below_set_refuted :
  exists (ops : list (op N N)) (q : list N) (x : N) S1 S2,
    whole 1 ops /\
    query (container KHashSet N) bhx (after KHashSet bhx 1 1 (f64_of_N 0) ops) q = Some S1 /\
    query (container KVec N) bhx (after KVec bhx 1 1 (f64_of_N 0) ops) q = Some S2 /\
    x ∈ S2 /\ x ∉ S1.
Proof.
  exists [Insert 1 [1]; Insert 1 [1]; Remove 1; Insert 1 [2]], [1], 1.
  eexists _, _. split; [apply (bool_decide_unpack _); vm_compute; exact I|].
  split; [reflexivity|]. split; [reflexivity|].
  split; apply (bool_decide_unpack _); vm_compute; exact I.
Qed.
Print Assumptions C96_exact.
Print Assumptions C96_buckets.
Print Assumptions C96_alone.
Print Assumptions C96_reorder.
Print Assumptions C96_set_below_vec.
Print Assumptions C96_bulk_remove_alone_refuted.
Print Assumptions C96_vec_below_set_refuted.
