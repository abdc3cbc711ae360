(** C100: bulk insertions stopped half-way, and what can be said after histories with them. *)
From stdpp Require Import base list gmap.
From Coq Require Import NArith.
From Verif Require Import Base Float Container MinHashIndex SpecIndex SpecHistory SpecStopped
  ExampleIndex PropsHistoryQuery StoppedThms.

(** Every history: each stopped call leaves some beginning of its pairs in each band, and the
    buckets and the answers are exactly those of these beginnings. *)
Theorem C100_exact {T} `{!EqDecision T} {Id} `{Countable Id}
    (k : container_kind) (bh : list T -> N) (nb bw : nat) (th : f64) (ops : list (op Id T)) :
  exists l : list (call T Id), l.*1 = ops /\ Forall (legit nb bw) l /\
    (forall i b key x, bands (after k bh nb bw th ops) !! i = Some b ->
      length (filter (fun y => y = x)
        (match hash_table b !! key with Some c => ic_elems (container k Id) c | None => [] end)) =
      kept k bh (nb * bw) bw i key x l) /\
    (forall q, well_sized (nb * bw) (spec_map (nb * bw) ops) -> length q = nb * bw ->
      exists S, query (container k Id) bh (after k bh nb bw th ops) q = Some S /\
        forall x, x ∈ S <-> kept_answer k bh nb bw th l q x) /\
    (forall q x order sort, length q = nb * bw -> is_order order -> kept_ghost k bh nb bw l q x ->
      query_owned_return_similarity (container k Id) bh order sort
        (after k bh nb bw th ops) q = None /\
      forall j, query_top_k (container k Id) bh order sort (after k bh nb bw th ops) q j = None).
Proof.
  destruct (after_kept k bh nb bw th ops) as (l & Hl & Hleg & Ht).
  exists l. split; [done|]. split; [done|]. split; [|split].
  - intros i b key x Hi. exact (tally_buckets k bh nb bw th ops _ i b key x Ht Hi).
  - intros q. exact (kept_query_of k bh nb bw th ops l q (or_introl Hl) Ht).
  - intros q x order sort. exact (kept_ghost_of k bh nb bw th ops l q x order sort (or_introl Hl) Ht).
Qed.

(** ... and every choice of legitimate beginnings is what some schedules leave. *)
Theorem C100_attained {T} `{!EqDecision T} {Id} `{Countable Id}
    (k : container_kind) (bh : list T -> N) (nb bw : nat) (th : f64) (l : list (call T Id)) :
  Forall (legit nb bw) l ->
  exists ops, unscheduled <$> ops = unscheduled <$> l.*1 /\
    (forall i b key x, bands (after k bh nb bw th ops) !! i = Some b ->
      length (filter (fun y => y = x)
        (match hash_table b !! key with Some c => ic_elems (container k Id) c | None => [] end)) =
      kept k bh (nb * bw) bw i key x l) /\
    (forall q, well_sized (nb * bw) (spec_map (nb * bw) ops) -> length q = nb * bw ->
      exists S, query (container k Id) bh (after k bh nb bw th ops) q = Some S /\
        forall x, x ∈ S <-> kept_answer k bh nb bw th l q x) /\
    (forall q x order sort, length q = nb * bw -> is_order order -> kept_ghost k bh nb bw l q x ->
      query_owned_return_similarity (container k Id) bh order sort
        (after k bh nb bw th ops) q = None /\
      forall j, query_top_k (container k Id) bh order sort (after k bh nb bw th ops) q j = None).
Proof.
  intros Hleg. destruct (after_attained k bh nb bw th l Hleg) as (ops & Hl & Ht).
  exists ops. split; [done|]. split; [|split].
  - intros i b key x Hi. exact (tally_buckets k bh nb bw th ops _ i b key x Ht Hi).
  - intros q. exact (kept_query_of k bh nb bw th ops l q (or_intror Hl) Ht).
  - intros q x order sort. exact (kept_ghost_of k bh nb bw th ops l q x order sort (or_intror Hl) Ht).
Qed.

(** A stopped insertion of ids that are not stored does not change the answers of [query]. *)
Theorem C100_fresh {T} `{!EqDecision T} {Id} `{Countable Id}
    (k : container_kind) (bh : list T -> N) (nb bw : nat) (th : f64)
    (ops : list (op Id T)) (o : op Id T) (ps : list (Id * list T)) (q : list T) :
  stopped (nb * bw) o = Some ps ->
  (forall x, x ∈ ps.*1 -> spec_map (nb * bw) ops !! x = None) ->
  well_sized (nb * bw) (spec_map (nb * bw) ops) -> length q = nb * bw ->
  query (container k Id) bh (after k bh nb bw th (ops ++ [o])) q =
  query (container k Id) bh (after k bh nb bw th ops) q.
Proof. exact (stopped_fresh k bh nb bw th ops o ps q). Qed.

(** But it can make the other queries panic: under the key of any pair that a band reaches. *)
Theorem C100_poisoned {T} `{!EqDecision T} {Id} `{Countable Id}
    (k : container_kind) (bh : list T -> N) (nb bw : nat) (th : f64)
    (ops : list (op Id T)) (o : op Id T) (ps : list (Id * list T))
    (j : nat) (x : Id) (s : list T) (i : nat) (q : list T) order sort :
  stopped (nb * bw) o = Some ps ->
  ps !! j = Some (x, s) -> i < nb -> j < reach bw i ps ->
  spec_map (nb * bw) ops !! x = None ->
  length q = nb * bw -> bh (nth_band bw i q) = bh (nth_band bw i s) -> is_order order ->
  exists o', unscheduled o' = unscheduled o /\
    query_owned_return_similarity (container k Id) bh order sort
      (after k bh nb bw th (ops ++ [o'])) q = None /\
    forall j', query_top_k (container k Id) bh order sort
      (after k bh nb bw th (ops ++ [o'])) q j' = None.
Proof. exact (stopped_poison k bh nb bw th ops o ps j x s i q order sort). Qed.

(** With hash sets a retry that repeats what the bands can have kept repairs everything, whatever
    the schedule of the stopped call was. *)
Theorem C100_retry {T} `{!EqDecision T} {Id} `{Countable Id}
    (bh : list T -> N) (nb bw : nat) (th : f64)
    (ops : list (op Id T)) (o : op Id T) (ps : list (Id * list T)) (sched : list nat)
    (ps' : list (Id * list T)) (q : list T) :
  stopped (nb * bw) o = Some ps -> pairs_too_short (nb * bw) ps' = false ->
  repeats nb bw ps ps' -> length q = nb * bw ->
  let K := container KHashSet Id in
  let m := after KHashSet bh nb bw th (ops ++ [ParBulkInsertPairs sched ps']) in
  let m' := after KHashSet bh nb bw th (ops ++ [o; ParBulkInsertPairs sched ps']) in
  id_signatures m' = id_signatures m /\
  query K bh m' q = query K bh m q /\
  (forall order, query_one K bh order m' q = query_one K bh order m q) /\
  (forall order sort, query_owned_return_similarity K bh order sort m' q =
     query_owned_return_similarity K bh order sort m q) /\
  (forall order sort j, query_top_k K bh order sort m' q j = query_top_k K bh order sort m q j).
Proof. exact (retry_set bh nb bw th ops o ps sched ps' q). Qed.

Local Open Scope N_scope.
(** The second signature covers the first band only. *)
Definition broken : list (N * list N) := [(1, [1;2;3;4]); (2, [5;6]); (3, [7;8;9;9])].

Example C100_example :
  stopped 4 (ParBulkInsertPairs [0;1;1]%nat broken) = Some broken /\
  reach 2 0 broken = 3%nat /\ reach 2 1 broken = 1%nat /\
  (* band 1 always keeps the first pair; band 0 keeps one, or all *)
  (fun m => map (fun b => (map_to_list (hash_table b)).*1) (bands m))
    (after KVec bhx 2 2 half [ParBulkInsertPairs [0;1;1]%nat broken]) =
    [[bhx [1;2]]; [bhx [3;4]]] /\
  (fun m => map (fun b => length ((map_to_list (hash_table b)).*1)) (bands m))
    (after KVec bhx 2 2 half [ParBulkInsertPairs [] broken]) = [3; 1]%nat /\
  query_owned_return_similarity (container KVec N) bhx elements (sort_of f64_ge)
    (after KVec bhx 2 2 half [ParBulkInsertPairs [0;1;1]%nat broken]) [5;6;0;0] = Some [] /\
  query_owned_return_similarity (container KVec N) bhx elements (sort_of f64_ge)
    (after KVec bhx 2 2 half [ParBulkInsertPairs [] broken]) [5;6;0;0] = None.
Proof. vm_compute. auto 10. Qed.

Example C100_legit_example :
  Forall (legit 2 2)
    [(ParBulkInsertPairs [] broken, fun i => match i with O => 2 | _ => 1 end)%nat;
     (Insert 1 [1;2;3;4], fun _ => O)] /\
  ~ legit 2 2 (ParBulkInsertPairs [] broken, fun _ => O).
Proof.
  split.
  - constructor; [|constructor; [exact I|constructor]]. vm_compute. split.
    + intros [|[|i]] Hi; vm_compute; lia.
    + exists 1%nat. vm_compute. lia.
  - intros [_ (i & Hi & He & Hl)]. destruct i as [|[|i]]; vm_compute in He, Hl; lia.
Qed.

Example C100_retry_example :
  repeats 2 2 broken [(1, [1;2;3;4]); (2, [5;6;0;1]); (3, [7;8;9;9])] /\
  query_owned_return_similarity (container KHashSet N) bhx elements (sort_of f64_ge)
    (after KHashSet bhx 2 2 half
      [ParBulkInsertPairs [] broken;
       ParBulkInsertPairs [] [(1, [1;2;3;4]); (2, [5;6;0;1]); (3, [7;8;9;9])]; Remove 1]) [1;2;3;4]
  = Some [].
Proof.
  split; [|vm_compute; reflexivity]. intros x s i Hin Hi Hl. unfold broken in Hin.
  apply elem_of_cons in Hin as [[= -> ->]|Hin].
  { exists [1;2;3;4]. split; [left|done]. }
  apply elem_of_cons in Hin as [[= -> ->]|Hin].
  { exists [5;6;0;1]. split; [right; left|].
    destruct i as [|[|i]]; [done|simpl in Hl; lia|lia]. }
  apply elem_of_cons in Hin as [[= -> ->]|Hin]; [|by apply elem_of_nil in Hin].
  exists [7;8;9;9]. split; [right; right; left|done].
Qed.

(** With vectors the same retry leaves a second entry, and removing the id a ghost. *)
Theorem C100_retry_vec_refuted :
  exists ps ps' : list (N * list N),
    stopped 4 (ParBulkInsertPairs [] ps) = Some ps /\ pairs_too_short 4 ps' = false /\
    query_owned_return_similarity (container KVec N) bhx elements (sort_of f64_ge)
      (after KVec bhx 2 2 half [ParBulkInsertPairs [] ps'; Remove 1]) [1;2;3;4] = Some [] /\
    query_owned_return_similarity (container KVec N) bhx elements (sort_of f64_ge)
      (after KVec bhx 2 2 half [ParBulkInsertPairs [] ps; ParBulkInsertPairs [] ps'; Remove 1])
      [1;2;3;4] = None.
Proof.
  exists broken, [(1, [1;2;3;4]); (2, [5;6;0;1]); (3, [7;8;9;9])]. vm_compute. auto.
Qed.

(** A stopped insertion of a stored id does change the answers: the old signature is answered
    under a key of the one that was never stored. *)
Theorem C100_fresh_stored_refuted :
  exists (ops : list (op N N)) (o : op N N) ps (q : list N),
    stopped 4 o = Some ps /\ well_sized 4 (spec_map 4 ops) /\
    elements <$> query (container KVec N) bhx (after KVec bhx 2 2 (f64_of_N 0) ops) q = Some [] /\
    elements <$> query (container KVec N) bhx (after KVec bhx 2 2 (f64_of_N 0) (ops ++ [o])) q
      = Some [3].
Proof.
  exists [Insert 3 [0;0;0;0]], (ParBulkInsertPairs [0;0;0]%nat broken), broken, [7;8;1;1].
  split; [vm_compute; reflexivity|].
  split; [apply (bool_decide_unpack _); vm_compute; exact I|]. vm_compute. auto.
Qed.
Print Assumptions C100_exact.
Print Assumptions C100_attained.
Print Assumptions C100_fresh.
Print Assumptions C100_poisoned.
Print Assumptions C100_retry.
Print Assumptions C100_retry_vec_refuted.
Print Assumptions C100_fresh_stored_refuted.
