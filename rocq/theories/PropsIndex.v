(** Properties C01-C16: the MinHash index.

    [after k bh nb bw th ops] is the index (containers of kind [k], band hash [bh], [nb] bands
    of [bw] hashes, threshold [th]) after the history of calls [ops] on a fresh index; calls may
    panic. [spec_map (nb*bw) ops] is the plain map the history stands for (SpecIndex.v). *)
From stdpp Require Import base list gmap.
From Coq Require Import NArith.
From Verif Require Import Base Par Float Container MinHashIndex SpecIndex.
From Verif Require Import ParFacts ContainerFacts SimilarityFacts MinHashIndexFacts MinHashIndexFacts2 MinHashIndexFacts3
  MinHashIndexThms SortFacts ExampleIndex.
Local Open Scope nat_scope.

(** ** C01 *)
Theorem C01_query_sound {T} `{!EqDecision T} {Id} `{Countable Id}
    (k : container_kind) (bh : list T -> N) (nb bw : nat) (th : f64)
    (ops : list (op Id T)) (q : list T) (S : gset Id) (id : Id) :
  query (container k Id) bh (after k bh nb bw th ops) q = Some S -> id ∈ S ->
  exists s, spec_map (nb * bw) ops !! id = Some s /\ length s = length q /\
    f64_ge (sim s q) th = true.
Proof. intros HS Hid. eapply query_sound; eauto using after_inv. Qed.

Example C01_example :
  elements <$> query (container KVec N) bhx (after KVec bhx 2 2 half dirty_ops) [1;2;3;4]%N
  = Some [1;2;4]%N.
Proof. vm_compute. reflexivity. Qed.
Print Assumptions C01_query_sound.

(** ** C02 *)
Theorem C02_query_recall {T} `{!EqDecision T} {Id} `{Countable Id}
    (k : container_kind) (bh : list T -> N) (nb bw : nat) (th : f64)
    (ops : list (op Id T)) (q : list T) :
  well_sized (nb * bw) (spec_map (nb * bw) ops) -> length q = nb * bw ->
  exists S, query (container k Id) bh (after k bh nb bw th ops) q = Some S /\
    forall id s i, spec_map (nb * bw) ops !! id = Some s -> f64_ge (sim s q) th = true ->
      i < nb -> share_band bw i s q -> id ∈ S.
Proof. exact (recall k bh nb bw th ops q). Qed.

Example C02_example :
  well_sized 4 (spec_map 4 dirty_ops) /\
  spec_map 4 dirty_ops !! 4%N = Some [7;7;3;4]%N /\
  f64_ge (sim [7;7;3;4]%N [1;2;3;4]%N) half = true /\
  nth_band 2 1 [7;7;3;4]%N = nth_band 2 1 [1;2;3;4]%N.
Proof. split; [apply dirty_ops_sized|]. vm_compute. auto. Qed.
Print Assumptions C02_query_recall.

(** ** C03 *)
Theorem C03_query_exact {T} `{!EqDecision T} {Id} `{Countable Id}
    (k : container_kind) (bh : list T -> N) (nb bw : nat) (th : f64)
    (ops : list (op Id T)) (q : list T) :
  clean (nb * bw) ops -> length q = nb * bw ->
  exists S, query (container k Id) bh (after k bh nb bw th ops) q = Some S /\
    forall id, id ∈ S <-> expected_answer nb bw bh th (spec_map (nb * bw) ops) q id.
Proof. exact (exact_answer k bh nb bw th ops q). Qed.

Theorem C03_query_exact_collision_free {T} `{!EqDecision T} {Id} `{Countable Id}
    (k : container_kind) (bh : list T -> N) (nb bw : nat) (th : f64)
    (ops : list (op Id T)) (q : list T) :
  clean (nb * bw) ops -> length q = nb * bw -> collision_free bw bh ->
  exists S, query (container k Id) bh (after k bh nb bw th ops) q = Some S /\
    forall id, id ∈ S <->
      exists s, spec_map (nb * bw) ops !! id = Some s /\ f64_ge (sim s q) th = true /\
        exists i, i < nb /\ share_band bw i s q.
Proof.
  intros Hc Hq Hf. destruct (exact_answer k bh nb bw th ops q Hc Hq) as (S & HS & Hin).
  exists S. split; [done|]. intros id. rewrite Hin.
  apply expected_answer_collision_free; auto using clean_well_sized.
Qed.

Theorem C03_history_independent {T} `{!EqDecision T} {Id} `{Countable Id}
    (k : container_kind) (bh : list T -> N) (nb bw : nat) (th : f64)
    (ops1 ops2 : list (op Id T)) (q : list T) :
  clean (nb * bw) ops1 -> clean (nb * bw) ops2 ->
  spec_map (nb * bw) ops1 = spec_map (nb * bw) ops2 ->
  query (container k Id) bh (after k bh nb bw th ops1) q =
  query (container k Id) bh (after k bh nb bw th ops2) q.
Proof. exact (history_independent k k bh nb bw th ops1 ops2 q). Qed.

(** Ids 1 to 4 answer the query; the other history inserts what is left, in another order. *)
Definition clean_ops' : list (op N N) :=
  [Insert 4 [7;7;3;4]; Insert 3 [1;2;7;8]; Insert 2 [1;2;3;5]; Insert 1 [1;2;3;4]]%N.
Example C03_example :
  clean 4 clean_ops /\ clean 4 clean_ops' /\ spec_map 4 clean_ops = spec_map 4 clean_ops' /\
  collision_free 2 bh_injective /\
  elements <$> query (container KVec N) bhx (after KVec bhx 2 2 half clean_ops) [1;2;3;4]%N
  = Some [1;3;2;4]%N.
Proof.
  split; [apply clean_ops_clean|]. split; [by apply (bool_decide_unpack _); vm_compute|].
  split; [by apply (bool_decide_unpack _); vm_compute|].
  split; [apply bh_injective_ok|]. vm_compute. reflexivity.
Qed.
Print Assumptions C03_query_exact.
Print Assumptions C03_query_exact_collision_free.
Print Assumptions C03_history_independent.

(** After overwriting a live id the answer is no longer a function of the map: 1 was stored
    under [1;2;3;3] first, so it is a candidate for a query that shares no band with what is
    stored now. *)
Theorem C03_history_independent_dirty_refuted :
  exists (ops1 ops2 : list (op N N)) (q : list N),
    spec_map 4 ops1 = spec_map 4 ops2 /\
    query (container KHashSet N) bhx (after KHashSet bhx 2 2 half ops1) q ≠
    query (container KHashSet N) bhx (after KHashSet bhx 2 2 half ops2) q.
Proof.
  exists [Insert 1 [1;2;3;3]; Insert 1 [1;9;3;9]]%N, [Insert 1 [1;9;3;9]]%N, [1;2;3;4]%N.
  split; [by apply (bool_decide_unpack _); vm_compute|].
  intros E. apply (f_equal (fmap elements)) in E. vm_compute in E. done.
Qed.
Print Assumptions C03_history_independent_dirty_refuted.

(** ** C04 *)
Theorem C04_recall_pigeonhole {T} `{!EqDecision T} {Id} `{Countable Id}
    (k : container_kind) (bh : list T -> N) (nb bw : nat) (th : f64)
    (ops : list (op Id T)) (q : list T) :
  well_sized (nb * bw) (spec_map (nb * bw) ops) -> length q = nb * bw ->
  exists S, query (container k Id) bh (after k bh nb bw th ops) q = Some S /\
    forall id s, spec_map (nb * bw) ops !! id = Some s -> f64_ge (sim s q) th = true ->
      length q - agreements s q < nb -> id ∈ S.
Proof. exact (pigeonhole_recall k bh nb bw th ops q). Qed.

Example C04_example :
  well_sized 4 (spec_map 4 dirty_ops) /\
  spec_map 4 dirty_ops !! 2%N = Some [1;2;3;5]%N /\
  f64_ge (sim [1;2;3;5]%N [1;2;3;4]%N) half = true /\
  4 - agreements [1;2;3;5]%N [1;2;3;4]%N = 1.
Proof. split; [apply dirty_ops_sized|]. vm_compute. auto. Qed.
Print Assumptions C04_recall_pigeonhole.

(** The bound is sharp: with one difference in each band nothing is found. *)
Theorem C04_bound_sharp_refuted :
  exists (ops : list (op N N)) (q s : list N),
    clean 4 ops /\ spec_map 4 ops !! 1%N = Some s /\ f64_ge (sim s q) half = true /\
    length q - agreements s q = 2 /\
    elements <$> query (container KVec N) bhx (after KVec bhx 2 2 half ops) q = Some [].
Proof.
  exists [Insert 1 [1;2;3;4]]%N, [1;9;3;9]%N, [1;2;3;4]%N.
  split; [by apply (bool_decide_unpack _); vm_compute|]. vm_compute. auto.
Qed.
Print Assumptions C04_bound_sharp_refuted.

(** ** C05 *)
Theorem C05_self_retrieval {T} `{!EqDecision T} {Id} `{Countable Id}
    (k : container_kind) (bh : list T -> N) (nb bw : nat) (th : f64)
    (ops : list (op Id T)) (id : Id) :
  well_sized (nb * bw) (spec_map (nb * bw) ops) ->
  0 < nb -> 0 < bw -> (N.of_nat (nb * bw) <= 2 ^ 53)%N -> f64_ge f64_one th = true ->
  match spec_map (nb * bw) ops !! id with
  | Some s => exists S, id ∈ S /\
      query_by_id (container k Id) bh (after k bh nb bw th ops) id = Some S /\
      query_by_id_owned (container k Id) bh (after k bh nb bw th ops) id = Some S /\
      query_index_query (container k Id) bh (after k bh nb bw th ops) id = Some S
  | None =>
      query_by_id (container k Id) bh (after k bh nb bw th ops) id = Some ∅ /\
      query_by_id_owned (container k Id) bh (after k bh nb bw th ops) id = Some ∅ /\
      query_index_query (container k Id) bh (after k bh nb bw th ops) id = Some ∅
  end.
Proof.
  intros Hw Hnb Hbw Hb Hth.
  unfold query_by_id, query_by_id_owned, query_index_query. rewrite sigs_after.
  destruct (spec_map (nb * bw) ops !! id) as [s|] eqn:Hs; [|done].
  destruct (self_query k bh nb bw th ops id s) as (S & HS & Hid); try done.
  exists S. split; [done|]. split; [exact HS|]. split; [|exact HS].
  by rewrite query_owned_query.
Qed.

Example C05_example :
  well_sized 4 (spec_map 4 dirty_ops) /\ (N.of_nat 4 <= 2 ^ 53)%N /\
  f64_ge f64_one half = true /\ spec_map 4 dirty_ops !! 1%N = Some [1;2;9;9]%N /\
  elements <$> query_by_id (container KVec N) bhx (after KVec bhx 2 2 half dirty_ops) 1%N
  = Some [1;2]%N /\
  spec_map 4 dirty_ops !! 3%N = None.
Proof. split; [apply dirty_ops_sized|]. vm_compute. by auto 10. Qed.
Print Assumptions C05_self_retrieval.

(** ** C06 *)
Theorem C06_index_is_map {T} `{!EqDecision T} {Id} `{Countable Id}
    (k : container_kind) (bh : list T -> N) (nb bw : nat) (th : f64) (ops : list (op Id T)) :
  (forall id, get_signature (container k Id) (after k bh nb bw th ops) id
              = spec_map (nb * bw) ops !! id) /\
  index_size (container k Id) (after k bh nb bw th ops) = size (spec_map (nb * bw) ops) /\
  (forall o, spec_out (nb * bw) (spec_map (nb * bw) ops) o
               (step (container k Id) bh (after k bh nb bw th ops) o).2) /\
  (forall o id, (step (container k Id) bh (after k bh nb bw th ops) o).2 = OPanic ->
     get_signature (container k Id) (after k bh nb bw th (ops ++ [o])) id =
     get_signature (container k Id) (after k bh nb bw th ops) id).
Proof.
  split; [intros id; unfold get_signature; by rewrite sigs_after|].
  split; [unfold index_size; by rewrite sigs_after|].
  split; [intros o; eapply step_inv; [apply container_laws_all|apply after_inv]|].
  apply panic_map_unchanged.
Qed.

Example C06_example :
  run_out (container KVec N) bhx (new_index (container KVec N) 2 2 half) dirty_ops =
    [OUnit; OUnit; OPanic; OSig (Some [9; 9; 9; 9]); OUnit; OUnit;
     OSigs [[6; 6; 6; 6]]; OUnit; OUnit; OSigs [[1; 2; 7; 8]]; OPanic; OPanic]%N /\
  index_size (container KVec N) (after KVec bhx 2 2 half dirty_ops) = 3 /\
  removed_sigs [3;7;7;1;3]%N (spec_map 4 clean_ops) = [[1;2;7;8];[1;2;3;4]]%N.
Proof. vm_compute. auto. Qed.
Print Assumptions C06_index_is_map.

(** ** C07 *)
Theorem C07_query_one_any {T} `{!EqDecision T} {Id} `{Countable Id}
    (k : container_kind) (bh : list T -> N) (nb bw : nat) (th : f64)
    (ops : list (op Id T)) (q : list T) (order : gset Id -> list Id) :
  f64_valid th = true ->
  well_sized (nb * bw) (spec_map (nb * bw) ops) -> length q = nb * bw -> is_order order ->
  exists r, query_one (container k Id) bh order (after k bh nb bw th ops) q = Some r /\
    match r with
    | Some (id, v) =>
        exists s, spec_map (nb * bw) ops !! id = Some s /\ v = sim s q /\ f64_gt v th = true /\
          forall id' s' i, spec_map (nb * bw) ops !! id' = Some s' -> i < nb ->
            share_band bw i s' q -> f64_gt (sim s' q) v = false
    | None =>
        forall id' s' i, spec_map (nb * bw) ops !! id' = Some s' -> i < nb ->
          share_band bw i s' q -> f64_gt (sim s' q) th = false
    end.
Proof. exact (query_one_any k bh nb bw th ops q order). Qed.

Theorem C07_query_one_clean {T} `{!EqDecision T} {Id} `{Countable Id}
    (k : container_kind) (bh : list T -> N) (nb bw : nat) (th : f64)
    (ops : list (op Id T)) (q : list T) (order : gset Id -> list Id) :
  f64_valid th = true ->
  clean (nb * bw) ops -> length q = nb * bw -> is_order order ->
  exists r, query_one (container k Id) bh order (after k bh nb bw th ops) q = Some r /\
    match r with
    | Some (id, v) =>
        candidate nb bw bh (spec_map (nb * bw) ops) q id /\
        exists s, spec_map (nb * bw) ops !! id = Some s /\ v = sim s q /\ f64_gt v th = true /\
          forall id' s', candidate nb bw bh (spec_map (nb * bw) ops) q id' ->
            spec_map (nb * bw) ops !! id' = Some s' -> f64_gt (sim s' q) v = false
    | None =>
        forall id' s', candidate nb bw bh (spec_map (nb * bw) ops) q id' ->
          spec_map (nb * bw) ops !! id' = Some s' -> f64_gt (sim s' q) th = false
    end.
Proof. exact (query_one_clean k bh nb bw th ops q order). Qed.

Theorem C07_threshold_one_never_answers {T} `{!EqDecision T} {Id} `{Countable Id}
    (k : container_kind) (bh : list T -> N) (nb bw : nat)
    (ops : list (op Id T)) (q : list T) (order : gset Id -> list Id) :
  well_sized (nb * bw) (spec_map (nb * bw) ops) -> length q = nb * bw -> is_order order ->
  (N.of_nat (nb * bw) <= 2 ^ 53)%N ->
  query_one (container k Id) bh order (after k bh nb bw f64_one ops) q = Some None.
Proof. exact (query_one_threshold_one k bh nb bw ops q order). Qed.

Example C07_example :
  f64_valid half = true /\ clean 4 clean_ops /\ is_order (Id := N) elements /\
  query_one (container KVec N) bhx elements (after KVec bhx 2 2 half clean_ops) [1;2;3;5]%N
  = Some (Some (2%N, f64_one)).
Proof.
  split; [done|]. split; [apply clean_ops_clean|]. split; [by intros s|]. vm_compute. reflexivity.
Qed.

(** [query] answers but [query_one] does not. *)
Theorem C07_query_one_complete_refuted :
  exists (ops : list (op N N)) (q : list N),
    clean 4 ops /\
    elements <$> query (container KVec N) bhx (after KVec bhx 2 2 half ops) q = Some [1]%N /\
    query_one (container KVec N) bhx elements (after KVec bhx 2 2 half ops) q = Some None.
Proof.
  exists [Insert 1 [1;2;3;4]]%N, [1;2;7;8]%N.
  split; [by apply (bool_decide_unpack _); vm_compute|]. vm_compute. auto.
Qed.
Print Assumptions C07_query_one_any.
Print Assumptions C07_query_one_clean.
Print Assumptions C07_threshold_one_never_answers.
Print Assumptions C07_query_one_complete_refuted.

(** ** C08 *)
Theorem C08_query_variants_agree {T} `{!EqDecision T} {Id} `{Countable Id}
    (k : container_kind) (bh : list T -> N) (nb bw : nat) (th : f64) (ops : list (op Id T)) :
  let m := after k bh nb bw th ops in
  (forall q, query_owned (container k Id) bh m q = query (container k Id) bh m q) /\
  (forall id s, spec_map (nb * bw) ops !! id = Some s ->
     query_by_id (container k Id) bh m id = query (container k Id) bh m s /\
     query_by_id_owned (container k Id) bh m id = query (container k Id) bh m s /\
     query_index_query (container k Id) bh m id = query (container k Id) bh m s) /\
  (forall sched qs,
     par_bulk_query (container k Id) bh sched m qs = mapM (query (container k Id) bh m) qs).
Proof.
  simpl. split; [apply query_owned_query|]. split.
  - intros id s Hs. unfold query_by_id, query_by_id_owned, query_index_query.
    rewrite sigs_after, Hs. auto using query_owned_query.
  - intros sched qs. unfold par_bulk_query. rewrite par_map_mapM.
    apply mapM_ext. apply query_owned_query.
Qed.

Example C08_example :
  fmap (map elements)
    (par_bulk_query (container KVec N) bhx [1;0;1]%nat (after KVec bhx 2 2 half dirty_ops)
       [[1;2;3;4];[0;0;0;0]]%N) = Some [[1;2;4]; []]%N /\
  par_bulk_query (container KVec N) bhx [1;0;1]%nat (after KVec bhx 2 2 half dirty_ops)
       [[1;2;3;4];[0;0;0]]%N = None.
Proof. vm_compute. auto. Qed.
Print Assumptions C08_query_variants_agree.

(** ** C09 *)
Theorem C09_return_similarity {T} `{!EqDecision T} {Id} `{Countable Id}
    (k : container_kind) (bh : list T -> N) (nb bw : nat) (th : f64)
    (ops : list (op Id T)) (q : list T)
    (order : gset Id -> list Id) (sort : list (Id * f64) -> list (Id * f64)) :
  clean (nb * bw) ops -> length q = nb * bw -> is_order order -> is_sort f64_ge sort ->
  exists l,
    query_owned_return_similarity (container k Id) bh order sort (after k bh nb bw th ops) q
    = Some l /\
    NoDup l.*1 /\
    (forall id v, (id, v) ∈ l <->
       expected_answer nb bw bh th (spec_map (nb * bw) ops) q id /\
       exists s, spec_map (nb * bw) ops !! id = Some s /\ v = sim s q) /\
    forall i j a c, i < j -> l !! i = Some a -> l !! j = Some c -> f64_ge a.2 c.2 = true.
Proof.
  intros Hc Hq. eapply return_similarity_spec; eauto using after_inv, after_exact, clean_well_sized.
Qed.

Example C09_example :
  clean 4 clean_ops /\ is_order (Id := N) elements /\ is_sort (Id := N) f64_ge sort_desc /\
  map fst <$> query_owned_return_similarity (container KVec N) bhx elements sort_desc
    (after KVec bhx 2 2 half clean_ops) [1;2;3;4]%N = Some [1;2;3;4]%N.
Proof.
  split; [apply clean_ops_clean|]. split; [by intros s|]. split; [apply sort_desc_ok|].
  vm_compute. reflexivity.
Qed.

(** With a stale id it panics although [query] does not. *)
Theorem C09_never_panics_refuted :
  exists (ops : list (op N N)) (q : list N),
    well_sized 4 (spec_map 4 ops) /\ length q = 4 /\
    elements <$> query (container KHashSet N) bhx (after KHashSet bhx 2 2 half ops) q = Some [] /\
    query_owned_return_similarity (container KHashSet N) bhx elements sort_desc
      (after KHashSet bhx 2 2 half ops) q = None.
Proof.
  exists [Insert 1 [1;2;3;4]; Insert 1 [5;6;7;8]; Remove 1]%N, [1;2;3;4]%N.
  split; [by apply (bool_decide_unpack _); vm_compute|]. vm_compute. auto.
Qed.
Print Assumptions C09_return_similarity.
Print Assumptions C09_never_panics_refuted.

(** ** C10 *)
Theorem C10_top_k {T} `{!EqDecision T} {Id} `{Countable Id}
    (k : container_kind) (bh : list T -> N) (nb bw : nat) (th : f64)
    (ops : list (op Id T)) (q : list T) (n : nat)
    (order : gset Id -> list Id) (sort : list (Id * f64) -> list (Id * f64)) :
  clean (nb * bw) ops -> length q = nb * bw ->
  0 < length q -> (N.of_nat (length q) < 2 ^ 51)%N ->
  is_order order -> is_sort (fun a c => f64_ge c a) sort ->
  let m := spec_map (nb * bw) ops in
  exists (cs : gset Id) l,
    query_top_k (container k Id) bh order sort (after k bh nb bw th ops) q n = Some l /\
    (forall id, id ∈ cs <-> candidate nb bw bh m q id) /\
    length l = Nat.min n (size cs) /\
    NoDup l.*1 /\
    (forall id d, (id, d) ∈ l -> id ∈ cs /\ exists s, m !! id = Some s /\ d = dist q s) /\
    (forall i j a c, i < j -> l !! i = Some a -> l !! j = Some c -> f64_ge c.2 a.2 = true) /\
    (forall id d s id' s', (id, d) ∈ l -> m !! id = Some s ->
       id' ∈ cs -> id' ∉ l.*1 -> m !! id' = Some s' -> agreements q s' <= agreements q s).
Proof.
  intros Hc Hq Hpos Hb Hord Hsort m.
  eapply top_k_spec; eauto using after_inv, after_exact, clean_well_sized.
Qed.

Example C10_example :
  clean 4 clean_ops /\ is_order (Id := N) elements /\
  is_sort (Id := N) (fun a c => f64_ge c a) sort_asc /\
  map fst <$> query_top_k (container KVec N) bhx elements sort_asc
    (after KVec bhx 2 2 half clean_ops) [1;2;3;5]%N 2 = Some [2;1]%N.
Proof.
  split; [apply clean_ops_clean|]. split; [by intros s|]. split; [apply sort_asc_ok|].
  vm_compute. reflexivity.
Qed.

(** Without hashes: one candidate has the distance NaN, two candidates panic. *)
Theorem C10_no_hashes {T} `{!EqDecision T} {Id} `{Countable Id}
    (k : container_kind) (bh : list T -> N) (nb bw : nat) (th : f64)
    (ops : list (op Id T)) (n : nat)
    (order : gset Id -> list Id) (sort : list (Id * f64) -> list (Id * f64)) :
  clean (nb * bw) ops -> nb * bw = 0 -> is_order order -> (forall l, sort l ≡ₚ l) ->
  exists cs : gset Id,
    (forall id, id ∈ cs <-> candidate nb bw bh (spec_map (nb * bw) ops) [] id) /\
    query_top_k (container k Id) bh order sort (after k bh nb bw th ops) [] n =
      if decide (2 <= size cs) then Panic else Ok (take n ((fun id => (id, S754_nan)) <$> elements cs)).
Proof.
  intros Hc H0 Hord Hsort.
  eapply top_k_no_hashes; eauto using after_inv, after_exact, clean_well_sized.
Qed.

Example C10_no_hashes_example : clean (Id := N) (T := N) 0 [Insert 7%N []] /\
  query_top_k (container KHashSet N) bhx elements sort_asc
    (after KHashSet bhx 2 0 half [Insert 7%N []]) [] 3 = Some [(7, S754_nan)]%N.
Proof. split; [by apply (bool_decide_unpack _); vm_compute|]. vm_compute. reflexivity. Qed.

(** It panics on stale ids, and on signatures without hashes (NaN distances). *)
Theorem C10_never_panics_refuted :
  (exists (ops : list (op N N)) (q : list N),
    well_sized 4 (spec_map 4 ops) /\ length q = 4 /\
    query_top_k (container KHashSet N) bhx elements sort_asc
      (after KHashSet bhx 2 2 half ops) q 1 = None) /\
  (exists (ops : list (op N N)),
    clean 0 ops /\
    query_top_k (container KHashSet N) bhx elements sort_asc
      (after KHashSet bhx 2 0 half ops) [] 1 = None).
Proof.
  split.
  - exists [Insert 1 [1;2;3;4]; Insert 1 [5;6;7;8]; Remove 1]%N, [1;2;3;4]%N.
    split; [by apply (bool_decide_unpack _); vm_compute|]. vm_compute. auto.
  - exists [Insert 1 []; Insert 2 []]%N.
    split; [by apply (bool_decide_unpack _); vm_compute|]. vm_compute. auto.
Qed.
Print Assumptions C10_top_k.
Print Assumptions C10_no_hashes.
Print Assumptions C10_never_panics_refuted.

(** ** C11 *)
Theorem C11_par_bulk_insert_sequential {T} `{!EqDecision T} {Id} `{Countable Id}
    (k : container_kind) (bh : list T -> N) (nb bw : nat) (th : f64) (ops : list (op Id T))
    (sched : list nat) (ids : list Id) (sigs : list (list T)) :
  Forall (fun s => length s = nb * bw) sigs ->
  after k bh nb bw th (ops ++ [ParBulkInsert sched ids sigs]) =
  after k bh nb bw th (ops ++ ((fun p => Insert p.1 p.2) <$> zip ids sigs)).
Proof. exact (bulk_insert_seq k bh nb bw th ops sched ids sigs). Qed.

Theorem C11_par_bulk_insert_pairs_sequential {T} `{!EqDecision T} {Id} `{Countable Id}
    (k : container_kind) (bh : list T -> N) (nb bw : nat) (th : f64) (ops : list (op Id T))
    (sched : list nat) (ps : list (Id * list T)) :
  Forall (fun p => length p.2 = nb * bw) ps ->
  after k bh nb bw th (ops ++ [ParBulkInsertPairs sched ps]) =
  after k bh nb bw th (ops ++ ((fun p => Insert p.1 p.2) <$> ps)).
Proof. exact (bulk_insert_pairs_seq k bh nb bw th ops sched ps). Qed.

(** More ids than signatures, a repeated id, interleaved bands. *)
Example C11_example :
  Forall (fun s : list N => length s = 4) [[1;2;3;4];[1;2;3;5];[1;2;3;6]]%N /\
  zip [8;8;2;6]%N [[1;2;3;4];[1;2;3;5];[1;2;3;6]]%N =
    [(8,[1;2;3;4]); (8,[1;2;3;5]); (2,[1;2;3;6])]%N /\
  elements <$> query (container KVec N) bhx (after KVec bhx 2 2 half
    (dirty_ops ++ [ParBulkInsert [1;0;0;1]%nat [8;8;2;6] [[1;2;3;4];[1;2;3;5];[1;2;3;6]]])%N)
    [1;2;3;4]%N = Some [1;2;4;8]%N.
Proof. split; [by repeat constructor|]. vm_compute. auto. Qed.
Print Assumptions C11_par_bulk_insert_sequential.
Print Assumptions C11_par_bulk_insert_pairs_sequential.

(** ** C12 *)
Theorem C12_bulk_remove_sequential {T} `{!EqDecision T} {Id} `{Countable Id}
    (k : container_kind) (bh : list T -> N) (nb bw : nat) (th : f64) (ops : list (op Id T))
    (sched : list nat) (ids : list Id) :
  NoDup ids -> Forall (fun id => is_Some (spec_map (nb * bw) ops !! id)) ids ->
  after k bh nb bw th (ops ++ [BulkRemove sched ids]) =
  after k bh nb bw th (ops ++ (Remove <$> ids)).
Proof. exact (bulk_remove_as_seq k bh nb bw th ops sched ids). Qed.

(** For any list of ids the stored map is that of repeated removal. *)
Theorem C12_bulk_remove_map {T} `{!EqDecision T} {Id} `{Countable Id}
    (k : container_kind) (bh : list T -> N) (nb bw : nat) (th : f64) (ops : list (op Id T))
    (sched : list nat) (ids : list Id) (id : Id) :
  get_signature (container k Id) (after k bh nb bw th (ops ++ [BulkRemove sched ids])) id =
  get_signature (container k Id) (after k bh nb bw th (ops ++ (Remove <$> ids))) id.
Proof.
  unfold get_signature. rewrite !sigs_after. unfold spec_map. rewrite !fold_left_app.
  by rewrite removes_filter.
Qed.

Example C12_example :
  NoDup [3;1;4]%N /\ Forall (fun id => is_Some (spec_map 4 clean_ops !! id)) [3;1;4]%N /\
  elements <$> query (container KVec N) bhx (after KVec bhx 2 2 half
    (clean_ops ++ [BulkRemove [1;0;0;1]%nat [3;1;4]]%N)) [1;2;3;4]%N = Some [2]%N.
Proof.
  split; [by apply (bool_decide_unpack _); vm_compute|].
  split; [by apply (bool_decide_unpack _); vm_compute|]. vm_compute. reflexivity.
Qed.

(** With an absent id in the list the buckets of the others are not cleaned; a later query
    tells the difference. *)
Theorem C12_bulk_remove_absent_refuted :
  exists (ops rest : list (op N N)) (ids : list N) (q : list N),
    NoDup ids /\
    query (container KHashSet N) bhx
      (after KHashSet bhx 2 2 half (ops ++ [BulkRemove [] ids] ++ rest)) q ≠
    query (container KHashSet N) bhx
      (after KHashSet bhx 2 2 half (ops ++ (Remove <$> ids) ++ rest)) q.
Proof.
  exists [Insert 1 [1;2;3;3]]%N, [Insert 1 [1;9;3;9]]%N, [7;1]%N, [1;2;3;4]%N.
  split; [by apply (bool_decide_unpack _); vm_compute|].
  intros E. apply (f_equal (fmap elements)) in E. vm_compute in E. done.
Qed.
Print Assumptions C12_bulk_remove_sequential.
Print Assumptions C12_bulk_remove_map.
Print Assumptions C12_bulk_remove_absent_refuted.

(** ** C13 *)
Theorem C13_container_independent {T} `{!EqDecision T} {Id} `{Countable Id}
    (k1 k2 : container_kind) (bh : list T -> N) (nb bw : nat) (th : f64)
    (ops : list (op Id T)) (q : list T) :
  clean (nb * bw) ops ->
  query (container k1 Id) bh (after k1 bh nb bw th ops) q =
  query (container k2 Id) bh (after k2 bh nb bw th ops) q.
Proof. intros Hc. by apply history_independent. Qed.

(** Not even the hash functions matter as long as they do not collide. *)
Theorem C13_hash_independent {T} `{!EqDecision T} {Id} `{Countable Id}
    (k1 k2 : container_kind) (bh1 bh2 : list T -> N) (nb bw : nat) (th : f64)
    (ops : list (op Id T)) (q : list T) :
  clean (nb * bw) ops -> collision_free bw bh1 -> collision_free bw bh2 ->
  query (container k1 Id) bh1 (after k1 bh1 nb bw th ops) q =
  query (container k2 Id) bh2 (after k2 bh2 nb bw th ops) q.
Proof. intros Hc H1 H2. by apply keys_independent. Qed.

Example C13_example :
  clean 4 clean_ops /\
  elements <$> query (container (KSmallVec 3) N) bhx
    (after (KSmallVec 3) bhx 2 2 half clean_ops) [1;2;3;4]%N = Some [1;3;2;4]%N /\
  elements <$> query (container KHashSet N) bhx
    (after KHashSet bhx 2 2 half clean_ops) [1;2;3;4]%N = Some [1;3;2;4]%N.
Proof. split; [apply clean_ops_clean|]. vm_compute. auto. Qed.

Theorem C13_container_independent_dirty_refuted :
  exists (ops : list (op N N)) (q : list N),
    query (container KVec N) bhx (after KVec bhx 1 1 (f64_of_N 0) ops) q ≠
    query (container KHashSet N) bhx (after KHashSet bhx 1 1 (f64_of_N 0) ops) q.
Proof.
  exists [Insert 1 [1]; Insert 1 [1]; Remove 1; Insert 1 [2]]%N, [1]%N.
  intros E. apply (f_equal (fmap elements)) in E. vm_compute in E. done.
Qed.
Print Assumptions C13_container_independent.
Print Assumptions C13_hash_independent.
Print Assumptions C13_container_independent_dirty_refuted.

(** ** C14 *)
Theorem C14_no_garbage {T} `{!EqDecision T} {Id} `{Countable Id}
    (k : container_kind) (bh : list T -> N) (nb bw : nat) (th : f64) (ops : list (op Id T)) :
  clean (nb * bw) ops ->
  (forall st, band_sizes (container k Id) (after k bh nb bw th ops) = Some st ->
     sizes st = distinct_keys bw bh (spec_map (nb * bw) ops) <$> seq 0 nb) /\
  (0 < nb -> is_Some (band_sizes (container k Id) (after k bh nb bw th ops))).
Proof.
  intros Hc. split.
  - intros st. eapply band_sizes_exact; eauto using container_laws_all, after_inv, after_exact.
  - apply band_sizes_is_Some.
Qed.

Theorem C14_no_empty_bucket {T} `{!EqDecision T} {Id} `{Countable Id}
    (k : container_kind) (bh : list T -> N) (nb bw : nat) (th : f64) (ops : list (op Id T)) :
  forall b key c, b ∈ bands (after k bh nb bw th ops) -> hash_table b !! key = Some c ->
    ic_len (container k Id) c ≠ 0.
Proof. exact (no_empty_bucket k bh nb bw th ops). Qed.

Theorem C14_emptied {T} `{!EqDecision T} {Id} `{Countable Id}
    (k : container_kind) (bh : list T -> N) (nb bw : nat) (th : f64) (ops : list (op Id T)) :
  clean (nb * bw) ops -> spec_map (nb * bw) ops = ∅ ->
  forall b, b ∈ bands (after k bh nb bw th ops) -> hash_table b = ∅.
Proof. exact (emptied k bh nb bw th ops). Qed.

Example C14_example :
  clean 4 clean_ops /\
  band_sizes (container KVec N) (after KVec bhx 2 2 half clean_ops)
  = Some (BandStats 2 3 [2;3]) /\
  clean 4 (clean_ops ++ [BulkRemove [] [4;2]; Remove 1; Remove 3; Remove 9]%N) /\
  spec_map 4 (clean_ops ++ [BulkRemove [] [4;2]; Remove 1; Remove 3; Remove 9]%N) = ∅.
Proof.
  split; [apply clean_ops_clean|]. split; [vm_compute; reflexivity|].
  split; by apply (bool_decide_unpack _); vm_compute.
Qed.

(** Overwriting then removing leaves entries behind for good. *)
Theorem C14_no_garbage_dirty_refuted :
  exists ops : list (op N N), spec_map 4 ops = ∅ /\
    band_sizes (container KHashSet N) (after KHashSet bhx 2 2 half ops)
    = Some (BandStats 1 1 [1;1]).
Proof.
  exists [Insert 1 [1;2;3;4]; Insert 1 [5;6;7;8]; Remove 1]%N.
  split; [by apply (bool_decide_unpack _); vm_compute|]. vm_compute. reflexivity.
Qed.
Print Assumptions C14_no_garbage.
Print Assumptions C14_no_empty_bucket.
Print Assumptions C14_emptied.
Print Assumptions C14_no_garbage_dirty_refuted.

(** ** C15 *)
Theorem C15_wrong_length_rejected {T} `{!EqDecision T} {Id} `{Countable Id}
    (k : container_kind) (bh : list T -> N) (nb bw : nat) (th : f64) (ops : list (op Id T))
    (id : Id) (s q : list T) :
  let m := after k bh nb bw th ops in
  (length s ≠ nb * bw -> step (container k Id) bh m (Insert id s) = (m, OPanic)) /\
  (length q ≠ nb * bw -> query (container k Id) bh m q = None).
Proof.
  simpl. split.
  - apply insert_wrong_length.
  - intros Hq. eapply query_wrong_length; eauto using after_inv.
Qed.

Theorem C15_bulk_checks {T} `{!EqDecision T} {Id} `{Countable Id}
    (k : container_kind) (bh : list T -> N) (nb bw : nat) (th : f64) (ops : list (op Id T))
    (sched : list nat) (ids : list Id) (sigs : list (list T)) (ps : list (Id * list T)) :
  let m := after k bh nb bw th ops in
  0 < nb ->
  ((step (container k Id) bh m (ParBulkInsert sched ids sigs)).2 = OPanic <->
     exists s0 rest, sigs = s0 :: rest /\
       (length s0 ≠ nb * bw \/ Exists (fun p => length p.2 < nb * bw) (zip ids sigs))) /\
  ((step (container k Id) bh m (ParBulkInsertPairs sched ps)).2 = OPanic <->
     Exists (fun p => length p.2 < nb * bw) ps).
Proof. simpl. intros _. exact (bulk_checks k bh nb bw th ops sched ids sigs ps). Qed.

(** A stored signature of another length makes every query that hits one of its bands panic. *)
Theorem C15_poisoned {T} `{!EqDecision T} {Id} `{Countable Id}
    (k : container_kind) (bh : list T -> N) (nb bw : nat) (th : f64) (ops : list (op Id T))
    (q s : list T) (id : Id) (i : nat) :
  spec_map (nb * bw) ops !! id = Some s -> length s ≠ length q ->
  i < nb -> share_band bw i s q ->
  query (container k Id) bh (after k bh nb bw th ops) q = None.
Proof. intros. eapply query_poisoned; eauto using after_inv. Qed.

(** A too long signature gets in through the bulk calls and breaks a well-formed query; a too
    short one panics half-way and leaves an id in a band. *)
Theorem C15_bulk_insert_safe_refuted :
  (exists (o : op N N) (q : list N),
     (step (container KVec N) bhx (after KVec bhx 2 2 half clean_ops) o).2 = OUnit /\
     length q = 4 /\ 
     query (container KVec N) bhx (after KVec bhx 2 2 half (clean_ops ++ [o])) q = None) /\
  (exists o : op N N,
     (step (container KVec N) bhx (after KVec bhx 2 2 half []) o).2 = OPanic /\
     index_size (container KVec N) (after KVec bhx 2 2 half [o]) = 0 /\
     band_sizes (container KVec N) (after KVec bhx 2 2 half [o]) = Some (BandStats 0 1 [1;0])).
Proof.
  split.
  - exists (ParBulkInsert [] [8;9] [[1;1;1;1];[1;2;3;4;5]])%N, [1;2;7;7]%N. vm_compute. auto.
  - exists (ParBulkInsertPairs [0;0]%nat [(1,[1;2])])%N. vm_compute. auto.
Qed.

Example C15_example :
  let ops := (clean_ops ++ [ParBulkInsert [] [8;9] [[1;1;1;1];[1;2;3;4;5]]])%N in
  spec_map 4 ops !! 9%N = Some [1;2;3;4;5]%N /\
  nth_band 2 0 [1;2;3;4;5]%N = nth_band 2 0 [1;2;7;7]%N.
Proof. vm_compute. auto. Qed.
Print Assumptions C15_wrong_length_rejected.
Print Assumptions C15_bulk_checks.
Print Assumptions C15_poisoned.
Print Assumptions C15_bulk_insert_safe_refuted.

(** ** C16 *)
Theorem C16_shrink_keeps_state {T} `{!EqDecision T} {Id} `{Countable Id}
    (k : container_kind) (bh : list T -> N) (nb bw : nat) (th : f64) (ops : list (op Id T))
    (cap mc : nat) :
  after k bh nb bw th (ops ++ [ShrinkTo cap mc]) = after k bh nb bw th ops /\
  after k bh nb bw th (ops ++ [ShrinkToFit]) = after k bh nb bw th ops.
Proof. exact (shrink_keeps_state k bh nb bw th ops cap mc). Qed.

Theorem C16_shrink_to_panics_iff {T} `{!EqDecision T} {Id} `{Countable Id}
    (k : container_kind) (bh : list T -> N) (nb bw : nat) (th : f64) (ops : list (op Id T))
    (cap mc : nat) (st : band_stats) :
  band_sizes (container k Id) (after k bh nb bw th ops) = Some st ->
  (N.of_nat (size (spec_map (nb * bw) ops)) <= 2 ^ 53)%N ->
  Forall (fun z => (N.of_nat z <= 2 ^ 53)%N) (sizes st) ->
  (step (container k Id) bh (after k bh nb bw th ops) (ShrinkTo cap mc)).2 = OPanic <->
  mc <= cap /\ exists z, z ∈ sizes st /\ size (spec_map (nb * bw) ops) <= z.
Proof. exact (shrink_to_panics_iff k bh nb bw th ops cap mc st). Qed.

(** In particular with at most one document. *)
Theorem C16_shrink_to_small_panics {T} `{!EqDecision T} {Id} `{Countable Id}
    (k : container_kind) (bh : list T -> N) (nb bw : nat) (th : f64) (ops : list (op Id T))
    (cap mc : nat) :
  0 < nb -> mc <= cap -> size (spec_map (nb * bw) ops) <= 1 ->
  (forall st, band_sizes (container k Id) (after k bh nb bw th ops) = Some st ->
     Forall (fun z => (N.of_nat z <= 2 ^ 53)%N) (sizes st)) ->
  (step (container k Id) bh (after k bh nb bw th ops) (ShrinkTo cap mc)).2 = OPanic.
Proof. exact (shrink_small_panics k bh nb bw th ops cap mc). Qed.

Example C16_example :
  (step (container KVec N) bhx (after KVec bhx 2 2 half clean_ops) (ShrinkTo 100 0)).2 = OUnit /\
  (step (container KVec N) bhx (after KVec bhx 2 2 half [Insert 1 [1;2;3;4]]%N)
     (ShrinkTo 100 0)).2 = OPanic /\
  (step (container KVec N) bhx (after KVec bhx 2 2 half []) (ShrinkTo 100 0)).2 = OPanic /\
  (step (container KVec N) bhx (after KVec bhx 2 2 half []) (ShrinkTo 1 2)).2 = OUnit.
Proof. vm_compute. auto. Qed.
Print Assumptions C16_shrink_keeps_state.
Print Assumptions C16_shrink_to_panics_iff.
Print Assumptions C16_shrink_to_small_panics.
