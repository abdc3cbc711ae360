(** Property C89: the parallel clusterer when the allocator gives out addresses again. *)
From stdpp Require Import base list gmap.
From Coq Require Import NArith.
From Verif Require Import Base ParallelClusterer SpecParallel HeapClusterer SpecHeap HeapFacts HeapSeparate HeapInv
  ParallelClustererSeparate PropsParallelSeparate.
Local Open Scope nat_scope.

Section C89.
Context {P : Type} `{Countable P}.
Context (query : P -> option (list P)) (min : nat) (checks : bool) (n : N) (chunks : list (list P)).
(** [l] says which thread takes the next step and which address an allocation gets. *)
Notation on_heap l := (h_run query min checks (h_start query n chunks) l).
Notation run schedule :=
  (run_schedule query min checks (System (Memory ∅ ∅ n) (cluster_slice_start query <$> chunks) false) schedule).

(** If no allocation gets an address that a point or a thread still has, then freed memory is used
    in the execution iff ParallelClusterer.v says so, the result is the same, the same points have
    pointers, and they lead to boxes with the same id and state. *)
Theorem C89_no_stale_reuse (l : list (nat * N)) :
  no_stale_reuse query min checks (h_start query n chunks) l ->
  h_undefined (on_heap l) = undefined (run l.*1) /\
  h_result (on_heap l) = result (run l.*1) /\
  forall p, (h_cells (h_mem (on_heap l)) !! p = None <-> cells (mem (run l.*1)) !! p = None) /\
    forall a b, h_cells (h_mem (on_heap l)) !! p = Some a -> h_boxes (h_mem (on_heap l)) !! a = Some b ->
      cells (mem (run l.*1)) !! p = Some (h_id b) /\
      boxes (mem (run l.*1)) !! h_id b = Some (Box (h_state b) false).
Proof.
  intros Hn. destruct (run_sim query min checks n chunks l Hn) as [f Hs].
  split; [exact (sim_undefined _ _ _ Hs)|].
  split; [exact (sim_result query min checks n chunks f l l.*1 Hs)|].
  intros p. exact (sim_cells query min checks n chunks f l l.*1 p Hs).
Qed.

(** Every schedule is that of such an execution. *)
Theorem C89_every_schedule (schedule : list nat) :
  exists l, l.*1 = schedule /\ no_stale_reuse query min checks (h_start query n chunks) l.
Proof. exact (all_schedules query min checks n chunks schedule). Qed.

(** With the chunks of C64 every execution is one: addresses do not matter. *)
Theorem C89_separate
    (Hquery : forall ch p, ch ∈ chunks -> p ∈ ch -> exists found, query p = Some found /\ NoDup found)
    (Hseparate : forall i j ch ch' p q found x, i <> j -> chunks !! i = Some ch -> chunks !! j = Some ch' ->
      p ∈ ch -> query p = Some found -> x ∈ found ->
      q ∈ ch' -> x <> q /\ forall found', query q = Some found' -> x ∉ found')
    (l : list (nat * N)) :
  no_stale_reuse query min checks (h_start query n chunks) l /\
  h_undefined (on_heap l) = false /\ h_result (on_heap l) = result (run l.*1).
Proof.
  assert (Hsep : separated query chunks) by by apply to_separated.
  assert (Hn : no_stale_reuse query min checks (h_start query n chunks) l).
  { apply never_freed. intros l' a b. apply (kept_run query min checks (Memory ∅ ∅ n) chunks l'); [done|done|].
    intros a' b' Hb. cbn in Hb. by rewrite lookup_empty in Hb. }
  destruct (C89_no_stale_reuse l Hn) as (Hu & Hr & _). split; [done|]. split; [|done].
  rewrite Hu. by apply (C64_finishes query min checks (Memory ∅ ∅ n) chunks Hquery Hseparate l.*1).
Qed.

(** Whatever addresses are given, a result has what C47 says: new and distinct ids, each cluster
    part of what some point of a chunk found, every pointer leading to a returned cluster with
    that point. *)
Theorem C89_any_reuse (l : list (nat * N)) (cs : list (N * list P)) :
  (forall p found, query p = Some found -> NoDup found) ->
  h_result (on_heap l) = Some cs ->
  NoDup cs.*1 /\
  (forall id own, (id, own) ∈ cs -> (n < id <= h_sequence (h_mem (on_heap l)))%N /\ NoDup own /\
    exists ch p found, ch ∈ chunks /\ p ∈ ch /\ query p = Some found /\ own `sublist_of` found) /\
  (forall p a, h_cells (h_mem (on_heap l)) !! p = Some a ->
    exists b own, h_boxes (h_mem (on_heap l)) !! a = Some b /\ h_state b = COMMITTED /\ (h_id b, own) ∈ cs /\ p ∈ own).
Proof. intros Hnd. exact (h_guarantees query min checks n chunks Hnd l cs). Qed.

(** Pointers of points lead to freed boxes only after a panic; otherwise only a thread that met a
    conflict can have the address of a freed box. *)
Theorem C89_dangling (l : list (nat * N)) :
  (forall t, t ∈ h_threads (on_heap l) -> at_pc t <> Panicked) ->
  (forall p a, h_cells (h_mem (on_heap l)) !! p = Some a -> is_Some (h_boxes (h_mem (on_heap l)) !! a)) /\
  (forall t a, t ∈ h_threads (on_heap l) -> a ∈ (clusters t).*1 ++ pc_addresses (at_pc t) ->
    is_Some (h_boxes (h_mem (on_heap l)) !! a) \/
    exists a' own p rest i, at_pc t = Conflict1 a' own p rest i a \/ at_pc t = Conflict2 a' own p rest i a \/
      at_pc t = Conflict3 a' own p rest i a \/ at_pc t = Conflict4 a' own p rest i a).
Proof.
  intros Hp. split; [intros p a; exact (h_no_dangling query min checks n chunks l p a Hp)|].
  exact (h_thread_addresses query min checks n chunks l).
Qed.
End C89.

(** As C48's points, and two more that are similar to each other only. *)
Definition c89_query (p : N) : option (list N) :=
  Some (match p with 1 => [1;2] | 2 => [2;1;3] | 3 => [3;2] | 4 => [4;5] | 5 => [5;4] | _ => [p] end)%N.
Notation c89_run l := (h_run c89_query 2 true (h_start c89_query 0 [[1;4];[2;3]]%N) l).
Notation fresh_run l := (run_schedule c89_query 2 true
  (System (Memory ∅ ∅ 0%N) (cluster_slice_start c89_query <$> [[1;4];[2;3]]%N) false) l).
Notation by_turns l := (concat (map (fun x => replicate x.2 x.1) l)).
Notation at_address a l := ((fun i : nat => (i, a%N)) <$> l).

(** An address that was freed is given again, and nobody has it any more. *)
Example C89_example :
  let l := at_address 7 (by_turns [(0,4);(1,8)]) ++ at_address 8 (by_turns [(0,60);(1,40)]) in
  no_stale_b c89_query 2 true (h_start c89_query 0 [[1;4];[2;3]]%N) l = true /\
  map_to_list (h_boxes (h_mem (c89_run (take 16 l)))) = [(7, HBox 1 0); (8, HBox 2 0)]%N /\
  map_to_list (h_boxes (h_mem (c89_run (take 24 l)))) = [(7, HBox 1 0)]%N /\
  map_to_list (h_boxes (h_mem (c89_run l))) = [(7, HBox 1 1); (8, HBox 3 1)]%N /\
  h_result (c89_run l) = Some [(3, [4;5]); (1, [2;1;3])]%N /\
  result (fresh_run l.*1) = Some [(3, [4;5]); (1, [2;1;3])]%N.
Proof. vm_compute. split_and!; reflexivity. Qed.

(** With separate chunks, three ways to give addresses. *)
Example C89_separate_example :
  let s a b := h_run c64_query 2 true (h_start c64_query 0 [[2;1];[3;5;4]]%N)
    (concat (replicate 40 [(0, a);(1, b)])) in
  h_result (s 7 7)%N = Some [(1, [1;2;7]); (2, [4;3;8])]%N /\
  h_result (s 8 7)%N = Some [(1, [1;2;7]); (2, [4;3;8])]%N /\
  map_to_list (h_boxes (h_mem (s 8 7)%N)) = [(7, HBox 2 1); (8, HBox 1 1)]%N.
Proof. vm_compute. split_and!; reflexivity. Qed.

(** A thread that met a conflict has the address of a freed box; no point has. *)
Example C89_dangling_example :
  let s := c89_run (at_address 7 (by_turns [(0,4);(1,8);(0,3);(1,2);(0,10)])) in
  h_threads s = [Thread (Filter [5] [4]) [] []; Thread (Conflict1 7 [2] 1 [3] 1 8) [3] []]%N /\
  map_to_list (h_boxes (h_mem s)) = [(7, HBox 1 0)]%N /\ map_to_list (h_cells (h_mem s)) = [(2, 7)]%N.
Proof. vm_compute. split_and!; reflexivity. Qed.

Print Assumptions C89_no_stale_reuse.
Print Assumptions C89_every_schedule.
Print Assumptions C89_separate.
Print Assumptions C89_any_reuse.
Print Assumptions C89_dangling.

(** Without the hypothesis it is false: a thread that was to use a freed cluster finds a later one
    at its address and rolls that back. The points 4 and 5, which nobody else finds, end without a
    cluster; point 1 is in a returned cluster, but has no pointer. *)
Theorem C89_reuse_refuted :
  exists (query : N -> option (list N)) (min : nat) (chunks : list (list N)) (l : list (nat * N)) (cs : list (N * list N)),
    let s := h_run query min true (h_start query 0 chunks) l in
    let s' := run_schedule query min true (System (Memory ∅ ∅ 0%N) (cluster_slice_start query <$> chunks) false) l.*1 in
    (forall p q f g, query p = Some f -> query q = Some g -> NoDup f /\ p ∈ f /\ (q ∈ f <-> p ∈ g)) /\
    undefined s' = true /\
    h_result s = Some cs /\
    (exists own, (1%N, own) ∈ cs /\ 1%N ∈ own /\ h_cells (h_mem s) !! 1%N = None) /\
    (4%N ∈ concat chunks /\ query 4%N = Some [4;5]%N /\ min <= 2 /\
     (forall p f, p <> 4%N -> p ∈ concat chunks -> query p = Some f -> 4%N ∉ f /\ 5%N ∉ f) /\
     forall own, own ∈ cs.*2 -> 4%N ∉ own /\ 5%N ∉ own).
Proof.
  exists c89_query, 2, [[1;4];[2;3]]%N.
  exists (at_address 7 (by_turns [(0,4);(1,8);(0,3);(1,2);(0,10)]) ++ at_address 8 (by_turns [(0,6);(1,10);(0,40)])).
  exists [(1, [2;1;3])]%N. cbn zeta. split_and!.
  - intros p q f g [= <-] [= <-]. split.
    { destruct p as [|[[|[]|]|[|[]|]|]];
        first [apply NoDup_singleton|apply (bool_decide_unpack _); vm_compute; exact I]. }
    destruct p as [|[[|[]|]|[|[]|]|]], q as [|[[|[]|]|[|[]|]|]]; set_solver.
  - vm_compute. reflexivity.
  - vm_compute. reflexivity.
  - exists [2;1;3]%N. split; [left|]. split; [set_solver|]. vm_compute. reflexivity.
  - set_solver.
  - reflexivity.
  - lia.
  - intros p f Hne Hp [= <-]. cbn in Hp.
    repeat (apply elem_of_cons in Hp as [-> | Hp]; [try done; cbn; set_solver|]). by apply elem_of_nil in Hp.
  - intros own Hin. cbn in Hin. apply elem_of_list_singleton in Hin as ->. set_solver.
Qed.
Print Assumptions C89_reuse_refuted.

(** After a panic points do have pointers to freed boxes: unwinding drops the clusters the thread
    had made, and nothing takes their pointers back. *)
Theorem C89_panic_dangling_refuted :
  exists (query : N -> option (list N)) (min : nat) (chunks : list (list N)) (l : list (nat * N)) (p a : N),
    let s := h_run query min true (h_start query 0 chunks) l in
    (forall p f, query p = Some f -> NoDup f /\ p ∈ f) /\
    h_undefined s = false /\ p ∈ concat chunks /\
    h_cells (h_mem s) !! p = Some a /\ h_boxes (h_mem s) !! a = None.
Proof.
  exists (fun p => Some (match p with 1 => [1;2] | 2 => [2;1;3] | 3 => [3;2] | 6 => [6;7;8;9] | _ => [p] end)%N).
  exists 2, [[6;2];[1;3]]%N, (at_address 7 (by_turns [(0,23);(1,9);(0,3);(1,2);(0,1)])), 6%N, 7%N.
  cbn zeta. split_and!.
  - intros p f [= <-]. split.
    + destruct p as [|[[]|[[]|[]|]|]]; first [apply NoDup_singleton|apply (bool_decide_unpack _); vm_compute; exact I].
    + destruct p as [|[[]|[[]|[]|]|]]; set_solver.
  - vm_compute. reflexivity.
  - set_solver.
  - vm_compute. reflexivity.
  - vm_compute. reflexivity.
Qed.
Print Assumptions C89_panic_dangling_refuted.
