(** C97: clustering when the answers of the query index are groups. *)
From stdpp Require Import base list gmap.
From Coq Require Import NArith.
From Verif Require Import Base Par Float Container MinHashIndex SpecIndex ExampleIndex SerialClusterer
  ParallelClusterer SpecParallel SpecGroups GroupFacts GroupThms.
Local Open Scope nat_scope.

(** The serial clusterer returns exactly the groups of more than [min_cluster_size] points. *)
Theorem C97_serial {P} `{Countable P} (query : P -> option (list P)) (k : clusterer)
    (points : list P) (m : gmap P N) :
  grouped query points ->
  (forall p f x, p ∈ points -> query p = Some f -> x ∈ f -> m !! x = None) ->
  exists m' cs, run_cluster query k points m = ((m', Some cs), k) /\
    all_groups query points (S (min_cluster_size k)) (c_points <$> cs).
Proof. exact (serial_groups query k points m). Qed.

(** Its clusters depend neither on the order of the points, nor on how often they are given, nor
    on the iteration order of the answers. *)
Theorem C97_serial_order {P} `{Countable P} (query query' : P -> option (list P)) (k : clusterer)
    (points points' : list P) (m m1 m2 : gmap P N) cs1 cs2 k1 k2 :
  grouped query points ->
  (forall p f x, p ∈ points -> query p = Some f -> x ∈ f -> m !! x = None) ->
  (forall p, p ∈ points <-> p ∈ points') ->
  (forall p f, p ∈ points -> query p = Some f -> exists f', query' p = Some f' /\ f ≡ₚ f') ->
  run_cluster query k points m = ((m1, Some cs1), k1) ->
  run_cluster query' k points' m = ((m2, Some cs2), k2) ->
  same_groups (c_points <$> cs1) (c_points <$> cs2).
Proof. exact (serial_groups_order query query' k points points' m m1 m2 cs1 cs2 k1 k2). Qed.

(** One thread of the parallel clusterer returns the groups of at least [min] points. *)
Theorem C97_single_thread {P} `{Countable P} (query : P -> option (list P)) (min : nat)
    (checks : bool) (m : memory P) (points : list P) :
  grouped query points ->
  (forall p f x, p ∈ points -> query p = Some f -> x ∈ f -> cells m !! x = None) ->
  exists (cs : list (N * list P)) k,
    (forall n, k <= n ->
      result (run_schedule query min checks (cluster_start query m points) (replicate n 0)) = Some cs) /\
    all_groups query points (Nat.max 1 min) cs.*2.
Proof. exact (single_groups query min checks m points). Qed.

(** Several threads: if the points of each group are in one chunk, every interleaving gives exactly
    the groups. *)
Theorem C97_parallel {P} `{Countable P} (query : P -> option (list P)) (min : nat) (checks : bool)
    (m0 : memory P) (chunks : list (list P)) (schedule : list nat) (cs : list (N * list P)) :
  grouped query (concat chunks) ->
  (forall p f x, p ∈ concat chunks -> query p = Some f -> x ∈ f -> cells m0 !! x = None) ->
  (forall i j ch ch' p q f g, i <> j -> chunks !! i = Some ch -> chunks !! j = Some ch' ->
     p ∈ ch -> q ∈ ch' -> query p = Some f -> query q = Some g -> ~ f ≡ₚ g) ->
  let s := run_schedule query min checks (System m0 (cluster_slice_start query <$> chunks) false) schedule in
  undefined s = false /\
  (result s = Some cs -> all_groups query (concat chunks) (Nat.max 1 min) cs.*2).
Proof. exact (parallel_groups query min checks m0 chunks schedule cs). Qed.

(** A MinHash index with threshold 1, after any history: the clusters are exactly the sets of more
    than [min_cluster_size] documents with the same signature. *)
Theorem C97_duplicates {T} `{!EqDecision T} {P} `{Countable P} (kind : container_kind)
    (bh : list T -> N) (nb bw : nat) (ops : list (op P T)) (order : gset P -> list P)
    (k : clusterer) (points : list P) :
  is_order order -> well_sized (nb * bw) (spec_map (nb * bw) ops) ->
  0 < nb -> 0 < bw -> (N.of_nat (nb * bw) <= 2 ^ 53)%N ->
  (forall p, p ∈ points -> is_Some (spec_map (nb * bw) ops !! p)) ->
  let search p := order <$> query_index_query (container kind P) bh (after kind bh nb bw f64_one ops) p in
  exists cells cs, run_cluster search k points ∅ = ((cells, Some cs), k) /\
    duplicate_groups (spec_map (nb * bw) ops) points (S (min_cluster_size k)) (c_points <$> cs).
Proof.
  intros Ho Hw Hnb Hbw Hb. exact (serial_duplicates kind bh nb bw ops order Ho Hw Hnb Hbw Hb k points).
Qed.

Theorem C97_duplicates_parallel {T} `{!EqDecision T} {P} `{Countable P} (kind : container_kind)
    (bh : list T -> N) (nb bw : nat) (ops : list (op P T)) (order : gset P -> list P)
    (min : nat) (checks : bool) (seq : N) (chunks : list (list P)) (schedule : list nat) cs :
  is_order order -> well_sized (nb * bw) (spec_map (nb * bw) ops) ->
  0 < nb -> 0 < bw -> (N.of_nat (nb * bw) <= 2 ^ 53)%N ->
  (forall ch p, ch ∈ chunks -> p ∈ ch -> is_Some (spec_map (nb * bw) ops !! p)) ->
  (forall i j ch ch' p q, i <> j -> chunks !! i = Some ch -> chunks !! j = Some ch' ->
     p ∈ ch -> q ∈ ch' -> spec_map (nb * bw) ops !! p <> spec_map (nb * bw) ops !! q) ->
  let search p := order <$> query_index_query (container kind P) bh (after kind bh nb bw f64_one ops) p in
  let s := run_schedule search min checks (System (Memory ∅ ∅ seq) (cluster_slice_start search <$> chunks) false) schedule in
  undefined s = false /\
  (result s = Some cs -> duplicate_groups (spec_map (nb * bw) ops) (concat chunks) (Nat.max 1 min) cs.*2).
Proof.
  intros Ho Hw Hnb Hbw Hb.
  exact (parallel_duplicates kind bh nb bw ops order Ho Hw Hnb Hbw Hb min checks seq chunks schedule cs).
Qed.

(** Three groups. *)
Definition c97_query (p : N) : option (list N) :=
  Some (match p with 1 | 2 | 7 => [7;1;2] | 3 | 4 => [3;4] | _ => [p] end)%N.
Lemma c97_grouped : grouped c97_query [2;3;5;1;4]%N.
Proof.
  split.
  - intros p Hp. eexists. split; [reflexivity|].
    repeat (apply elem_of_cons in Hp as [->|Hp]); try (by apply elem_of_nil in Hp);
      (split; apply (bool_decide_unpack _); vm_compute; exact I).
  - intros p q f g Hp Hq [= <-] [= <-].
    repeat (apply elem_of_cons in Hp as [->|Hp]); try (by apply elem_of_nil in Hp);
      repeat (apply elem_of_cons in Hq as [->|Hq]); try (by apply elem_of_nil in Hq);
      (by left) || (right; intros x; set_solver).
Qed.
Example C97_example :
  grouped c97_query [2;3;5;1;4]%N /\
  (run_cluster c97_query (clusterer_new 1) [2;3;5;1;4]%N ∅).1.2
    = Some [Cluster 1 [7;1;2]; Cluster 2 [3;4]]%N /\
  (run_cluster c97_query (clusterer_new 2) [4;4;5;1;3;2]%N ∅).1.2 = Some [Cluster 1 [7;1;2]]%N /\
  result (run_schedule c97_query 2 true (System (Memory ∅ ∅ 0%N)
    (cluster_slice_start c97_query <$> [[2;1];[3;5;4]]%N) false) (concat (replicate 60 [0;1])))
    = Some [(2, [7;1;2]); (1, [3;4])]%N.
Proof. split; [exact c97_grouped|]. vm_compute. split_and!; reflexivity. Qed.

(** Documents 1, 2 and 6 have the same signature, and 3 is one value away. *)
Definition c97_ops : list (op N N) :=
  [Insert 1 [1;2;3;4]; Insert 2 [9;9;9;9]; Insert 2 [1;2;3;4]; Insert 3 [1;2;3;5];
   Insert 4 [5;5;5;5]; Insert 6 [1;2;3;4]]%N.
Example C97_duplicates_example :
  well_sized 4 (spec_map 4 c97_ops) /\
  (run_cluster (fun p => elements <$> query_index_query (container KVec N) bhx (after KVec bhx 2 2 f64_one c97_ops) p)
    (clusterer_new 2) [3;6;4]%N ∅).1.2 = Some [Cluster 1 [1;2;6]]%N /\
  (run_cluster (fun p => elements <$> query_index_query (container KVec N) bhx (after KVec bhx 2 2 f64_one c97_ops) p)
    (clusterer_new 0) [3;6;4;1]%N ∅).1.2 = Some [Cluster 1 [3]; Cluster 2 [1;2;6]; Cluster 3 [4]]%N.
Proof. split; [apply (bool_decide_unpack _); vm_compute; exact I|]. vm_compute. split; reflexivity. Qed.

(** Without groups the order of the points matters: 2 is similar to 1 and to 3. *)
Theorem C97_order_refuted :
  exists (query : N -> option (list N)) (points points' : list N) c1 c2,
    (forall p q f g, p ∈ points -> q ∈ points -> query p = Some f -> query q = Some g ->
       p ∈ f /\ (q ∈ f <-> p ∈ g)) /\
    points ≡ₚ points' /\
    (run_cluster query (clusterer_new 0) points ∅).1.2 = Some c1 /\
    (run_cluster query (clusterer_new 0) points' ∅).1.2 = Some c2 /\ length c1 <> length c2.
Proof.
  exists (fun p => Some (match p with 1 => [1;2] | 2 => [1;2;3] | _ => [2;3] end))%N, [1;2;3]%N, [2;1;3]%N.
  eexists _, _. split; [|split; [by constructor|split; [vm_compute; reflexivity|split; [vm_compute; reflexivity|done]]]].
  intros p q f g Hp Hq [= <-] [= <-].
  repeat (apply elem_of_cons in Hp as [->|Hp]); try (by apply elem_of_nil in Hp);
    repeat (apply elem_of_cons in Hq as [->|Hq]); try (by apply elem_of_nil in Hq); set_solver.
Qed.

(** A group spread over two chunks can be lost, cut down below [min] points, or split, with two
    documents and two threads, although one thread finds it. *)
Definition c97_pair (p : N) : option (list N) := Some (match p with 1 => [1;2] | 2 => [2;1] | _ => [p] end)%N.
Lemma c97_pair_grouped : grouped c97_pair [1;2]%N.
Proof.
  split.
  - intros p Hp. eexists. split; [reflexivity|].
    repeat (apply elem_of_cons in Hp as [->|Hp]); try (by apply elem_of_nil in Hp);
      (split; apply (bool_decide_unpack _); vm_compute; exact I).
  - intros p q f g Hp Hq [= <-] [= <-]. left.
    repeat (apply elem_of_cons in Hp as [->|Hp]); try (by apply elem_of_nil in Hp);
      repeat (apply elem_of_cons in Hq as [->|Hq]); try (by apply elem_of_nil in Hq);
      apply Permutation_refl || apply perm_swap.
Qed.
Notation by_turns l := (concat (map (fun x => replicate x.2 x.1) l)).
Theorem C97_spread_refuted :
  exists (points : list N) (s0 : system (P := N)) (lost cut : list nat),
    grouped c97_pair points /\ cluster_par_start c97_pair (Memory ∅ ∅ 0%N) 2 points = Some s0 /\
    result (run_schedule c97_pair 2 true s0 lost) = Some [] /\
    result (run_schedule c97_pair 2 true s0 cut) = Some [(1, [1])]%N /\
    result (run_schedule c97_pair 2 true (cluster_start c97_pair (Memory ∅ ∅ 0%N) points) (replicate 30 0))
      = Some [(1, [1;2])]%N.
Proof.
  exists [1;2]%N. eexists.
  exists (by_turns [(0,5);(1,9);(0,40);(1,40)]), (by_turns [(0,5);(1,7);(0,5);(1,6);(0,40);(1,40)]).
  split; [exact c97_pair_grouped|].
  split; [vm_compute; reflexivity|]. vm_compute. split_and!; reflexivity.
Qed.
Theorem C97_split_refuted :
  exists (points : list N) (s0 : system (P := N)) (split : list nat),
    grouped c97_pair points /\ cluster_par_start c97_pair (Memory ∅ ∅ 0%N) 2 points = Some s0 /\
    result (run_schedule c97_pair 1 true s0 split) = Some [(1, [1]); (2, [2])]%N.
Proof.
  exists [1;2]%N. eexists. exists (by_turns [(0,7);(1,7);(0,3);(1,2);(0,40);(1,40)]).
  split; [exact c97_pair_grouped|].
  split; [vm_compute; reflexivity|]. vm_compute. reflexivity.
Qed.
Print Assumptions C97_serial.
Print Assumptions C97_serial_order.
Print Assumptions C97_single_thread.
Print Assumptions C97_parallel.
Print Assumptions C97_duplicates.
Print Assumptions C97_duplicates_parallel.
Print Assumptions C97_order_refuted.
Print Assumptions C97_spread_refuted.
Print Assumptions C97_split_refuted.
