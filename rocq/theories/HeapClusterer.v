(** Model of gaoya/src/clustering/clusterer_parallel.rs with an allocator that may give out an
    address again once it was freed. Definitions only.

    ParallelClusterer.v names a [Box<Cluster>] by its [cluster_id]; here it is named by its
    address, and the id is a field of the box. Threads, positions and the list of points are those
    of ParallelClusterer.v, with addresses in the place of ids. Reading a live box through a
    pointer to an earlier box at the same address is undefined behaviour in Rust; here it reads
    what is there. *)
From stdpp Require Import base list gmap infinite.
From Coq Require Import NArith.
From Verif Require Import Base ParallelClusterer.

(** clusterer_parallel.rs:91-95 [Cluster]: id and state of a live box. *)
Record hbox := HBox { h_id : N; h_state : N }.

(** Shared memory: the pointers of the points (20-23), the live boxes by address, and
    [cluster_id_sequence] (137). *)
Record heap (P : Type) `{Countable P} := Heap {
  h_cells : gmap P N;
  h_boxes : gmap N hbox;
  h_sequence : N;
}.
Arguments Heap {P _ _}.
Arguments h_cells {P _ _}.
Arguments h_boxes {P _ _}.
Arguments h_sequence {P _ _}.

Section Heap.
Context {P : Type} `{Countable P}.
Context (query : P -> res (list P)).
(** [self.min_cluster_size]; and whether arithmetic overflow is checked (debug builds). *)
Context (min : nat) (overflow_checks : bool).

Notation heap := (heap P).
Notation thread := (thread P).

(** The address of a new box: the one the allocator wants to give, unless a live box has it. *)
Definition alloc_at (x : N) (m : heap) : N :=
  if decide (is_Some (h_boxes m !! x)) then fresh (dom (h_boxes m)) else x.

(** clusterer_parallel.rs:110-114 [commit] and 116-120 [rollback]; [None] is a freed address. *)
Definition h_set_state (s : N) (a : N) (m : heap) : option (heap * bool) :=
  b ← h_boxes m !! a;
  Some (if (h_state b =? 0)%N
        then (Heap (h_cells m) (<[a := HBox (h_id b) s]> (h_boxes m)) (h_sequence m), true)
        else (m, false)).

(** clusterer_parallel.rs:122-128 [is_rolled_back], [is_commited]. *)
Definition h_is (s : N) (m : heap) (a : N) : option bool :=
  b ← h_boxes m !! a; Some (h_state b =? s)%N.

(** Dropping a box. *)
Definition h_drop (a : N) (m : heap) : heap := Heap (h_cells m) (delete a (h_boxes m)) (h_sequence m).

(** A panic unwinds [cluster_slice] and drops the clusters made so far (198). *)
Definition h_unwind (t : thread) (m : heap) : heap * thread :=
  (foldr (fun (x : N * list P) => h_drop x.1) m (clusters t), Thread Panicked (todo t) []).

(** One step of a thread, line by line as [ParallelClusterer.thread_step]; [x] is the address the
    allocator wants to give. [None] is the use of a freed address. *)
Definition h_thread_step (x : N) (m : heap) (t : thread) : option (heap * thread) :=
  let goto m' y := Some (m', Thread y (todo t) (clusters t)) in
  let cells_to c := Heap c (h_boxes m) (h_sequence m) in
  match at_pc t with
  (* 200-203 *)
  | Next =>
      match todo t with
      | [] => goto m Done
      | p :: todo' =>
          match h_cells m !! p with
          | Some _ => Some (m, Thread Next todo' (clusters t))
          | None =>
              match query p with
              | Some found => Some (m, Thread (Filter found []) todo' (clusters t))
              | None => Some (h_unwind t m)
              end
          end
      end
  (* 204-208 *)
  | Filter (q :: qs) acc =>
      match h_cells m !! q with
      | Some _ => goto m (Filter qs acc)
      | None => goto m (Filter qs (acc ++ [q]))
      end
  | Filter [] acc => if (min <=? length acc)%nat then goto m (Alloc acc) else goto m Next
  (* 226-230: the id is the new value of the counter *)
  | Alloc pts =>
      let a := alloc_at x m in
      let n := (h_sequence m + 1)%N in
      goto (Heap (h_cells m) (<[a := HBox n 0]> (h_boxes m)) n) (Check a [] pts 0)
  (* 232-236 *)
  | Check a own [] i => goto m (Commit a own)
  | Check a own rest i =>
      rb ← h_is ROLLED_BACK m a;
      if (rb : bool) then goto m (Undo a own own (Some (rest, i))) else goto m (Assign a own rest i)
  (* 282-289 *)
  | Undo a own (p :: pending) k =>
      goto (if decide (h_cells m !! p = Some a) then cells_to (delete p (h_cells m)) else m)
           (Undo a own pending k)
  | Undo a own [] (Some (rest, i)) => goto m (Assign a own rest i)
  | Undo a own [] None => goto (h_drop a m) Next
  (* 237-241 *)
  | Assign a own [] i => goto m (Commit a own)
  | Assign a own (p :: rest) i =>
      match h_cells m !! p with
      | None => goto (cells_to (<[p := a]> (h_cells m))) (Check a (own ++ [p]) rest (i + 1))
      | Some c => goto m (Conflict1 a own p rest i c)
      end
  (* 246-249 *)
  | Conflict1 a own p rest i c =>
      y ← h_is COMMITTED m c;
      if (y : bool) then goto m (Fail a own) else goto m (Conflict2 a own p rest i c)
  (* 250-251 *)
  | Conflict2 a own p rest i c =>
      y ← h_is ROLLED_BACK m c;
      if (y : bool) then
        if (overflow_checks && (i =? 0)%nat)%bool then Some (h_unwind t (h_drop a m))
        else goto m (Check a own rest (i + 1))
      else goto m (Conflict3 a own p rest i c)
  (* 252-256: compares the ids in the two boxes *)
  | Conflict3 a own p rest i c =>
      b ← h_boxes m !! c;
      b' ← h_boxes m !! a;
      if (h_id b <? h_id b')%N then goto m (Fail a own) else goto m (Conflict4 a own p rest i c)
  (* 258-265 *)
  | Conflict4 a own p rest i c =>
      r ← h_set_state ROLLED_BACK c m;
      if (r.2 : bool) then goto r.1 (Check a (own ++ [p]) rest (i + 1)) else goto r.1 (Fail a own)
  (* 247-249, 254-256, 262-264 *)
  | Fail a own => r ← h_set_state ROLLED_BACK a m; goto r.1 (Undo a own own None)
  (* 270-274 *)
  | Commit a own =>
      r ← h_set_state COMMITTED a m;
      if (r.2 : bool) then Some (r.1, Thread Next (todo t) (clusters t ++ [(a, own)]))
      else goto r.1 (Undo a own own None)
  | Done | Panicked => Some (m, t)
  end.

(** Memory, threads, and whether a freed address was used. *)
Record h_system := HSystem { h_mem : heap; h_threads : list thread; h_undefined : bool }.

(** A thread takes a step, with the address its allocation would get. *)
Definition h_step (s : h_system) (e : nat * N) : h_system :=
  if h_undefined s then s else
  match h_threads s !! e.1 with
  | None => s
  | Some t =>
      match h_thread_step e.2 (h_mem s) t with
      | Some (m', t') => HSystem m' (<[e.1 := t']> (h_threads s)) false
      | None => HSystem (h_mem s) (h_threads s) true
      end
  end.
Definition h_run (s : h_system) (l : list (nat * N)) : h_system := fold_left h_step l s.

(** Points without cluster, no box, the counter at [n]; one thread per chunk
    (clusterer_parallel.rs:165-199). *)
Definition h_start (n : N) (chunks : list (list P)) : h_system :=
  HSystem (Heap ∅ ∅ n) (cluster_slice_start query <$> chunks) false.

(** The result (172-174), with the ids read from the boxes. *)
Definition h_id_at (m : heap) (a : N) : N :=
  match h_boxes m !! a with Some b => h_id b | None => 0 end.
Definition h_result (s : h_system) : option (list (N * list P)) :=
  if (forallb is_done (h_threads s) && negb (h_undefined s))%bool
  then Some ((fun c => (h_id_at (h_mem s) c.1, c.2)) <$> concat (clusters <$> h_threads s)) else None.
End Heap.
