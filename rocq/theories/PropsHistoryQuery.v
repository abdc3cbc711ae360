(** C99: the queries with similarities after any history. *)
From stdpp Require Import base list gmap.
From Coq Require Import NArith.
From Verif Require Import Base Float Container MinHashIndex SpecIndex SpecHistory
  SpecHistoryQuery ExampleIndex PropsHistory HistoryQueryFacts.

(** A ghost makes the two queries that index the map panic. *)
Theorem C99_similarity_panics {T} `{!EqDecision T} {Id} `{Countable Id}
    (k : container_kind) (bh : list T -> N) (nb bw : nat) (th : f64)
    (ops : list (op Id T)) (q : list T) order sort (x : Id) :
  whole (nb * bw) ops -> length q = nb * bw -> is_order order ->
  ghost k bh nb bw ops q x ->
  query_owned_return_similarity (container k Id) bh order sort (after k bh nb bw th ops) q = None.
Proof. exact (history_similarity_panics k bh nb bw th ops q order sort x). Qed.

Theorem C99_top_k_panics {T} `{!EqDecision T} {Id} `{Countable Id}
    (k : container_kind) (bh : list T -> N) (nb bw : nat) (th : f64)
    (ops : list (op Id T)) (q : list T) (j : nat) order sort (x : Id) :
  whole (nb * bw) ops -> length q = nb * bw -> is_order order ->
  ghost k bh nb bw ops q x ->
  query_top_k (container k Id) bh order sort (after k bh nb bw th ops) q j = None.
Proof. exact (history_top_k_panics k bh nb bw th ops q j order sort x). Qed.

(** Without ghosts they answer, and exactly from the history. *)
Theorem C99_similarity {T} `{!EqDecision T} {Id} `{Countable Id}
    (k : container_kind) (bh : list T -> N) (nb bw : nat) (th : f64)
    (ops : list (op Id T)) (q : list T) order sort :
  whole (nb * bw) ops -> well_sized (nb * bw) (spec_map (nb * bw) ops) -> length q = nb * bw ->
  is_order order -> is_sort f64_ge sort ->
  (forall x, ~ ghost k bh nb bw ops q x) ->
  exists l, query_owned_return_similarity (container k Id) bh order sort
      (after k bh nb bw th ops) q = Some l /\
    NoDup l.*1 /\
    (forall x v, (x, v) ∈ l <-> history_answer k bh nb bw th ops q x /\
       exists s, spec_map (nb * bw) ops !! x = Some s /\ v = sim s q) /\
    forall i j a c, i < j -> l !! i = Some a -> l !! j = Some c -> f64_ge a.2 c.2 = true.
Proof. exact (history_similarity k bh nb bw th ops q order sort). Qed.

Theorem C99_top_k {T} `{!EqDecision T} {Id} `{Countable Id}
    (k : container_kind) (bh : list T -> N) (nb bw : nat) (th : f64)
    (ops : list (op Id T)) (q : list T) (j : nat) order sort :
  whole (nb * bw) ops -> well_sized (nb * bw) (spec_map (nb * bw) ops) -> length q = nb * bw ->
  0 < length q -> (N.of_nat (length q) < 2 ^ 51)%N ->
  is_order order -> is_sort (fun a c => f64_ge c a) sort ->
  (forall x, ~ ghost k bh nb bw ops q x) ->
  exists (cs : gset Id) l,
    query_top_k (container k Id) bh order sort (after k bh nb bw th ops) q j = Some l /\
    (forall x, x ∈ cs <-> met k bh nb bw ops q x) /\
    length l = Nat.min j (size cs) /\
    NoDup l.*1 /\
    (forall x d, (x, d) ∈ l -> x ∈ cs /\
       exists s, spec_map (nb * bw) ops !! x = Some s /\ d = dist q s) /\
    (forall i i' a c, i < i' -> l !! i = Some a -> l !! i' = Some c -> f64_ge c.2 a.2 = true) /\
    (forall x d s x' s', (x, d) ∈ l -> spec_map (nb * bw) ops !! x = Some s ->
       x' ∈ cs -> x' ∉ l.*1 -> spec_map (nb * bw) ops !! x' = Some s' ->
       agreements q s' <= agreements q s).
Proof. exact (history_top_k k bh nb bw th ops q j order sort). Qed.

(** The bulk query panics exactly when one of its queries meets a ghost. *)
Theorem C99_bulk {T} `{!EqDecision T} {Id} `{Countable Id}
    (k : container_kind) (bh : list T -> N) (nb bw : nat) (th : f64)
    (ops : list (op Id T)) (qs : list (list T)) order sort (sched : list nat) :
  whole (nb * bw) ops -> well_sized (nb * bw) (spec_map (nb * bw) ops) ->
  Forall (fun q => length q = nb * bw) qs -> is_order order -> is_sort f64_ge sort ->
  par_bulk_query_return_similarity (container k Id) bh order sort sched
    (after k bh nb bw th ops) qs = None <->
  exists q x, q ∈ qs /\ ghost k bh nb bw ops q x.
Proof. exact (history_bulk_similarity k bh nb bw th ops qs order sort sched). Qed.

(** [query_one] skips ghosts: a best one of the ids that are met and have a signature. *)
Theorem C99_query_one {T} `{!EqDecision T} {Id} `{Countable Id}
    (k : container_kind) (bh : list T -> N) (nb bw : nat) (th : f64)
    (ops : list (op Id T)) (q : list T) order :
  f64_valid th = true ->
  whole (nb * bw) ops -> well_sized (nb * bw) (spec_map (nb * bw) ops) -> length q = nb * bw ->
  is_order order ->
  exists r, query_one (container k Id) bh order (after k bh nb bw th ops) q = Some r /\
    match r with
    | Some (x, v) =>
        met k bh nb bw ops q x /\
        exists s, spec_map (nb * bw) ops !! x = Some s /\ v = sim s q /\ f64_gt v th = true /\
          forall x' s', met k bh nb bw ops q x' -> spec_map (nb * bw) ops !! x' = Some s' ->
            f64_gt (sim s' q) v = false
    | None => forall x' s', met k bh nb bw ops q x' -> spec_map (nb * bw) ops !! x' = Some s' ->
        f64_gt (sim s' q) th = false
    end.
Proof. exact (history_query_one k bh nb bw th ops q order). Qed.

(** Where ghosts do not occur: nothing is ever removed, ... *)
Theorem C99_no_removal {T} `{!EqDecision T} {Id} `{Countable Id}
    (k : container_kind) (bh : list T -> N) (nb bw : nat)
    (ops : list (op Id T)) (q : list T) (x : Id) :
  Forall no_removal ops -> ~ ghost k bh nb bw ops q x.
Proof. exact (no_removal_no_ghost bh nb bw k ops q x). Qed.

(** ... or, with hash sets, live ids are inserted again with the same signature only. *)
Theorem C99_same_again {T} `{!EqDecision T} {Id} `{Countable Id}
    (bh : list T -> N) (nb bw : nat) (ops : list (op Id T)) (q : list T) (x : Id) :
  same_again (nb * bw) ops -> ~ ghost KHashSet bh nb bw ops q x.
Proof. exact (set_same_again bh nb bw ops q x). Qed.

(** Then the answers are also exactly those of the map. *)
Theorem C99_same_again_query {T} `{!EqDecision T} {Id} `{Countable Id}
    (bh : list T -> N) (nb bw : nat) (th : f64) (ops : list (op Id T)) (q : list T) :
  same_again (nb * bw) ops -> length q = nb * bw ->
  exists S, query (container KHashSet Id) bh (after KHashSet bh nb bw th ops) q = Some S /\
    forall x, x ∈ S <-> expected_answer nb bw bh th (spec_map (nb * bw) ops) q x.
Proof. exact (set_same_again_query bh nb bw th ops q). Qed.

(** A ghost depends only on the calls made on its id, and only since the last [clear]. *)
Theorem C99_ghost_alone {T} `{!EqDecision T} {Id} `{Countable Id}
    (k : container_kind) (bh : list T -> N) (nb bw : nat)
    (ops : list (op Id T)) (q : list T) (x : Id) :
  Forall single ops -> ghost k bh nb bw ops q x <-> ghost k bh nb bw (calls_on x ops) q x.
Proof. exact (ghost_alone bh nb bw k ops q x). Qed.

Theorem C99_clear {T} `{!EqDecision T} {Id} `{Countable Id}
    (k : container_kind) (bh : list T -> N) (nb bw : nat)
    (ops ops' : list (op Id T)) (q : list T) (x : Id) :
  ghost k bh nb bw (ops ++ Clear :: ops') q x <-> ghost k bh nb bw ops' q x.
Proof. exact (ghost_clear bh nb bw k ops ops' q x). Qed.

Local Open Scope N_scope.
Global Instance same_again_dec n m (ops : list (op N N)) : Decision (same_again_from n m ops).
Proof.
  revert m. induction ops as [|o ops IH]; intros m; simpl; [apply _|].
  apply and_dec; [|apply IH]. destruct o; simpl; apply _.
Defined.

(** Id 1 is overwritten and removed: a ghost under [1;2], none under [5;6].  Id 2 is inserted
    twice with the same signature and removed. *)
Definition haunted_ops : list (op N N) :=
  [ Insert 1 [1;2;3;4]; Insert 1 [5;6;3;4]; Remove 1; Insert 3 [1;2;3;9]; Insert 4 [5;6;9;9] ].
Definition twice_ops : list (op N N) :=
  [ Insert 2 [1;2;3;4]; Insert 2 [1;2;3;4]; Remove 2; Insert 3 [1;2;3;9]; Insert 3 [1;2;3;9] ].

(** Insertion sort, by descending or ascending number. *)
Fixpoint put (le : f64 -> f64 -> bool) (p : N * f64) (l : list (N * f64)) : list (N * f64) :=
  match l with
  | [] => [p]
  | r :: l' => if le p.2 r.2 then p :: l else r :: put le p l'
  end.
Definition sort_of (le : f64 -> f64 -> bool) : list (N * f64) -> list (N * f64) :=
  foldr (put le) [].

Example C99_example :
  whole 4 haunted_ops /\ well_sized 4 (spec_map 4 haunted_ops) /\
  ghost KVec bhx 2 2 haunted_ops [1;2;0;0] 1 /\ ghost KHashSet bhx 2 2 haunted_ops [1;2;0;0] 1 /\
  (* the query does not notice, the others panic, one meets no ghost *)
  elements <$> query (container KVec N) bhx
    (after KVec bhx 2 2 half haunted_ops) [1;2;0;0] = Some [3] /\
  query_owned_return_similarity (container KVec N) bhx elements (sort_of f64_ge)
    (after KVec bhx 2 2 half haunted_ops) [1;2;0;0] = None /\
  query_top_k (container KVec N) bhx elements (sort_of (fun a c => f64_ge c a))
    (after KVec bhx 2 2 half haunted_ops) [1;2;0;0] 0 = None /\
  query_owned_return_similarity (container KVec N) bhx elements (sort_of f64_ge)
    (after KVec bhx 2 2 half haunted_ops) [5;6;0;0] = Some [(4, half)] /\
  par_bulk_query_return_similarity (container KVec N) bhx elements (sort_of f64_ge) [1;0]%nat
    (after KVec bhx 2 2 half haunted_ops) [[5;6;0;0]; [1;2;0;0]] = None.
Proof.
  split; [apply (bool_decide_unpack _); vm_compute; exact I|].
  split; [apply (bool_decide_unpack _); vm_compute; exact I|].
  split; [split; [exists 0%nat; split; [lia|]; vm_compute; lia|vm_compute; reflexivity]|].
  split; [split; [exists 0%nat; split; [lia|]; vm_compute; lia|vm_compute; reflexivity]|].
  vm_compute. auto.
Qed.

Example C99_same_again_example :
  same_again 4 twice_ops /\
  query_owned_return_similarity (container KHashSet N) bhx elements (sort_of f64_ge)
    (after KHashSet bhx 2 2 half twice_ops) [1;2;0;0] = Some [(3, half)] /\
  Forall no_removal [Insert 1 [1;2]; ParBulkInsertPairs [] [(1, [3;4]); (2, [1;2])]; Clear].
Proof.
  split; [apply (bool_decide_unpack _); vm_compute; exact I|].
  split; [vm_compute; reflexivity|]. repeat constructor.
Qed.

(** With vectors, inserting an id again with the same signature is enough for a ghost. *)
Theorem C99_same_again_vec_refuted :
  exists (ops : list (op N N)) (q : list N),
    same_again 4 ops /\ ghost KVec bhx 2 2 ops q 2 /\ ghost (KSmallVec 4) bhx 2 2 ops q 2 /\
    query_owned_return_similarity (container KVec N) bhx elements (sort_of f64_ge)
      (after KVec bhx 2 2 half ops) q = None.
Proof.
  exists twice_ops, [1;2;0;0].
  split; [apply (bool_decide_unpack _); vm_compute; exact I|].
  split; [split; [exists 0%nat; split; [lia|]; vm_compute; lia|vm_compute; reflexivity]|].
  split; [split; [exists 0%nat; split; [lia|]; vm_compute; lia|vm_compute; reflexivity]|].
  vm_compute. reflexivity.
Qed.

(** Removing the ghost's id again does not help, inserting it again does for the panic only:
    it is then answered for a query it has nothing to do with. *)
Theorem C99_exorcism_refuted :
  ghost KHashSet bhx 2 2 (haunted_ops ++ [Remove 1]) [1;2;0;0] 1 /\
  query_owned_return_similarity (container KHashSet N) bhx elements (sort_of f64_ge)
    (after KHashSet bhx 2 2 (f64_of_N 0) (haunted_ops ++ [Insert 1 [7;7;7;7]])) [1;2;0;0] =
    Some [(3, half); (1, f64_of_N 0)].
Proof.
  split; [|vm_compute; reflexivity].
  split; [exists 0%nat; split; [lia|]; vm_compute; lia|vm_compute; reflexivity].
Qed.
Print Assumptions C99_similarity_panics.
Print Assumptions C99_top_k_panics.
Print Assumptions C99_similarity.
Print Assumptions C99_top_k.
Print Assumptions C99_bulk.
Print Assumptions C99_query_one.
Print Assumptions C99_no_removal.
Print Assumptions C99_same_again.
Print Assumptions C99_same_again_query.
Print Assumptions C99_ghost_alone.
Print Assumptions C99_clear.
Print Assumptions C99_same_again_vec_refuted.
Print Assumptions C99_exorcism_refuted.
