(** Model of gaoya/src/clustering/clusterer_parallel.rs: threads taking atomic steps. Definitions
    only.

    A point is identified by its id: for each id the [Arc] in the point list and the one stored in
    the query index are assumed to be the same object, so one map holds the pointers [cluster] of
    all points. [query p] is [query_index.query(p)] in the iteration order of the returned HashSet
    ([None] = it panics); it may be any function of the point.
    Memory: every atomic operation is one step and the steps of the threads are interleaved (the
    older values that [Ordering::Relaxed] also permits are in WeakClusterer.v). A [Box<Cluster>] is
    named by its [cluster_id]: ids and addresses are both fresh per attempt (an allocator that
    uses addresses again is in HeapClusterer.v; the id counter does not overflow). Using a freed box is undefined
    behaviour and ends the execution. A thread that panics drops its own clusters; that rayon may
    then also drop the results of chunks that are finished, while others still run, is not
    modelled. *)
From stdpp Require Import base list gmap.
From Coq Require Import NArith.
From Verif Require Import Base.

(** clusterer_parallel.rs:88-89. *)
Definition COMMITTED : N := 1.
Definition ROLLED_BACK : N := 1.

(** clusterer_parallel.rs:91-95 [Cluster], the shared part: [state]; and whether the box was
    dropped. The field [points] is used by the creating thread only. *)
Record box := Box { state : N; freed : bool }.

(** Shared memory: the pointers of the points (20-23; absent = null), the boxes, and
    [cluster_id_sequence] (137). *)
Record memory (P : Type) `{Countable P} := Memory {
  cells : gmap P N;
  boxes : gmap N box;
  sequence : N;
}.
Arguments Memory {P _ _}.
Arguments cells {P _ _}.
Arguments boxes {P _ _}.
Arguments sequence {P _ _}.

(** Where a thread is in [cluster_slice] (193-220) and [try_create_cluster] (225-275): [a] is the
    box of the attempt, [own] its [cluster.points], [rest] the points of the attempt still to be
    visited, [i] the loop index, [c] a conflicting box. *)
Inductive pc (P : Type) :=
| Next                                                        (* 200: next point *)
| Filter (qs acc : list P)                                    (* 204-206: filtering *)
| Alloc (pts : list P)                                        (* 226-230 *)
| Check (a : N) (own rest : list P) (i : nat)                 (* 232-234 *)
| Undo (a : N) (own pending : list P) (k : option (list P * nat)) (* 282-289; then 237 or return *)
| Assign (a : N) (own rest : list P) (i : nat)                (* 237-238 *)
| Conflict1 (a : N) (own : list P) (p : P) (rest : list P) (i : nat) (c : N)  (* 246 *)
| Conflict2 (a : N) (own : list P) (p : P) (rest : list P) (i : nat) (c : N)  (* 250 *)
| Conflict3 (a : N) (own : list P) (p : P) (rest : list P) (i : nat) (c : N)  (* 252 *)
| Conflict4 (a : N) (own : list P) (p : P) (rest : list P) (i : nat) (c : N)  (* 258 *)
| Fail (a : N) (own : list P)                                 (* 247, 254, 262 *)
| Commit (a : N) (own : list P)                               (* 270 *)
| Done
| Panicked.
Arguments Next {P}.
Arguments Filter {P}.
Arguments Alloc {P}.
Arguments Check {P}.
Arguments Undo {P}.
Arguments Assign {P}.
Arguments Conflict1 {P}.
Arguments Conflict2 {P}.
Arguments Conflict3 {P}.
Arguments Conflict4 {P}.
Arguments Fail {P}.
Arguments Commit {P}.
Arguments Done {P}.
Arguments Panicked {P}.

(** A thread: its position, the points it still has to visit (200), the clusters it has pushed
    (213) as pairs of id and points. *)
Record thread (P : Type) := Thread { at_pc : pc P; todo : list P; clusters : list (N * list P) }.
Arguments Thread {P}.
Arguments at_pc {P}.
Arguments todo {P}.
Arguments clusters {P}.

Section Parallel.
Context {P : Type} `{Countable P}.
Context (query : P -> res (list P)).
(** [self.min_cluster_size]; and whether arithmetic overflow is checked (debug builds). *)
Context (min : nat) (overflow_checks : bool).

Notation memory := (memory P).
Notation thread := (thread P).

Definition set_cells (c : gmap P N) (m : memory) : memory := Memory c (boxes m) (sequence m).
Definition set_box (a : N) (b : box) (m : memory) : memory :=
  Memory (cells m) (<[a := b]> (boxes m)) (sequence m).

(** Dereferencing a box pointer. *)
Definition deref (m : memory) (a : N) : option box :=
  match boxes m !! a with
  | Some b => if freed b then None else Some b
  | None => None
  end.

(** clusterer_parallel.rs:49-59 [assign_cluster]: [Err] returns the pointer found. *)
Definition assign_cluster (p : P) (a : N) (m : memory) : memory + N :=
  match cells m !! p with
  | None => inl (set_cells (<[p := a]> (cells m)) m)
  | Some c => inr c
  end.

(** clusterer_parallel.rs:283-288: the compare-exchange from the own box to null. *)
Definition unassign (p : P) (a : N) (m : memory) : memory :=
  if decide (cells m !! p = Some a) then set_cells (delete p (cells m)) m else m.

(** clusterer_parallel.rs:110-114 [commit] and 116-120 [rollback]: the flag tells success. *)
Definition set_state_from_new (s : N) (a : N) (m : memory) : option (memory * bool) :=
  b ← deref m a;
  Some (if (state b =? 0)%N then (set_box a (Box s false) m, true) else (m, false)).
Definition commit := set_state_from_new COMMITTED.
Definition rollback := set_state_from_new ROLLED_BACK.

(** clusterer_parallel.rs:122-124 [is_rolled_back] and 126-128 [is_commited]. *)
Definition is_rolled_back (m : memory) (a : N) : option bool :=
  b ← deref m a; Some (state b =? ROLLED_BACK)%N.
Definition is_commited (m : memory) (a : N) : option bool :=
  b ← deref m a; Some (state b =? COMMITTED)%N.

(** Dropping the box at the end of an unsuccessful attempt or when unwinding. *)
Definition drop_box (a : N) (m : memory) : memory :=
  match boxes m !! a with Some b => set_box a (Box (state b) true) m | None => m end.

(** A panic unwinds [cluster_slice] and drops the clusters made so far (198). *)
Definition unwind (t : thread) (m : memory) : memory * thread :=
  (foldr (fun (x : N * list P) => drop_box x.1) m (clusters t), Thread Panicked (todo t) []).

(** One step of a thread; [None] is undefined behaviour. *)
Definition thread_step (m : memory) (t : thread) : option (memory * thread) :=
  let goto m' x := Some (m', Thread x (todo t) (clusters t)) in
  match at_pc t with
  (* 200-203 *)
  | Next =>
      match todo t with
      | [] => goto m Done
      | p :: todo' =>
          match cells m !! p with
          | Some _ => Some (m, Thread Next todo' (clusters t))
          | None =>
              match query p with
              | Some found => Some (m, Thread (Filter found []) todo' (clusters t))
              | None => Some (unwind t m)
              end
          end
      end
  (* 204-208: each [is_cluster_assigned] is one load *)
  | Filter (q :: qs) acc =>
      match cells m !! q with
      | Some _ => goto m (Filter qs acc)
      | None => goto m (Filter qs (acc ++ [q]))
      end
  | Filter [] acc => if (min <=? length acc)%nat then goto m (Alloc acc) else goto m Next
  (* 226-230 *)
  | Alloc pts =>
      let a := (sequence m + 1)%N in
      goto (Memory (cells m) (<[a := Box 0 false]> (boxes m)) a) (Check a [] pts 0)
  (* 232-236 *)
  | Check a own [] i => goto m (Commit a own)
  | Check a own rest i =>
      rb ← is_rolled_back m a;
      if (rb : bool) then goto m (Undo a own own (Some (rest, i))) else goto m (Assign a own rest i)
  (* 282-289 *)
  | Undo a own (p :: pending) k => goto (unassign p a m) (Undo a own pending k)
  | Undo a own [] (Some (rest, i)) => goto m (Assign a own rest i)
  | Undo a own [] None => goto (drop_box a m) Next
  (* 237-241 *)
  | Assign a own [] i => goto m (Commit a own)
  | Assign a own (p :: rest) i =>
      match assign_cluster p a m with
      | inl m' => goto m' (Check a (own ++ [p]) rest (i + 1))
      | inr c => goto m (Conflict1 a own p rest i c)
      end
  (* 246-249 *)
  | Conflict1 a own p rest i c =>
      x ← is_commited m c;
      if (x : bool) then goto m (Fail a own) else goto m (Conflict2 a own p rest i c)
  (* 250-251: [i] is assigned but the loop goes on with the next point *)
  | Conflict2 a own p rest i c =>
      x ← is_rolled_back m c;
      if (x : bool) then
        if (overflow_checks && (i =? 0)%nat)%bool then Some (unwind t (drop_box a m))
        else goto m (Check a own rest (i + 1))
      else goto m (Conflict3 a own p rest i c)
  (* 252-256 *)
  | Conflict3 a own p rest i c =>
      _ ← deref m c;
      if (c <? a)%N then goto m (Fail a own) else goto m (Conflict4 a own p rest i c)
  (* 258-265: the pointer of [p] stays as it is *)
  | Conflict4 a own p rest i c =>
      r ← rollback c m;
      if (r.2 : bool) then goto r.1 (Check a (own ++ [p]) rest (i + 1)) else goto r.1 (Fail a own)
  (* 247-249, 254-256, 262-264 *)
  | Fail a own => r ← rollback a m; goto r.1 (Undo a own own None)
  (* 270-274 *)
  | Commit a own =>
      r ← commit a m;
      if (r.2 : bool) then Some (r.1, Thread Next (todo t) (clusters t ++ [(a, own)]))
      else goto r.1 (Undo a own own None)
  | Done | Panicked => Some (m, t)
  end.

(** Shared memory, the threads, and whether the execution ran into undefined behaviour. *)
Record system := System { mem : memory; threads : list thread; undefined : bool }.

(** Thread [i] takes a step. *)
Definition system_step (s : system) (i : nat) : system :=
  if undefined s then s else
  match threads s !! i with
  | None => s
  | Some t =>
      match thread_step (mem s) t with
      | Some (m', t') => System m' (<[i := t']> (threads s)) false
      | None => System (mem s) (threads s) true
      end
  end.

(** An interleaving is the list of the threads that take the steps. *)
Definition run_schedule (s : system) (schedule : list nat) : system :=
  fold_left system_step schedule s.

(** [slice::sort_by] (standard library) is stable, so its result is that of insertion. *)
Fixpoint insert_sorted (count : P -> nat) (x : P) (l : list P) : list P :=
  match l with
  | [] => [x]
  | y :: l' => if (count y <=? count x)%nat then x :: l else y :: insert_sorted count x l'
  end.

(** clusterer_parallel.rs:177-191 [sort_by_most_number_of_similar_points]. *)
Definition count_of (p : P) : nat := match query p with Some l => length l | None => 0 end.
Definition sort_by_most_number_of_similar_points (points : list P) : res (list P) :=
  _ ← mapM query points;
  Ok (foldr (insert_sorted count_of) [] points).

(** clusterer_parallel.rs:193-199: the thread that runs [cluster_slice] on a chunk. *)
Definition cluster_slice_start (points : list P) : thread :=
  match sort_by_most_number_of_similar_points points with
  | Some sorted => Thread Next sorted []
  | None => Thread Panicked points []
  end.

(** rayon's [par_chunks_mut]: consecutive chunks of [size] elements, the last one may be
    shorter; panics if [size] is zero. *)
Fixpoint chunks_fuel (fuel size : nat) (points : list P) : list (list P) :=
  match fuel, points with
  | O, _ => []
  | _, [] => []
  | S fuel', _ => take size points :: chunks_fuel fuel' size (drop size points)
  end.
Definition par_chunks (size : nat) (points : list P) : res (list (list P)) :=
  if (size =? 0)%nat then Panic else Ok (chunks_fuel (length points) size points).

(** clusterer_parallel.rs:170-171: the chunks of [cluster_par]; division by zero panics. *)
Definition cluster_par_chunks (n_threads : nat) (points : list P) : res (list (list P)) :=
  if (n_threads =? 0)%nat then Panic else par_chunks (length points / n_threads) points.

(** clusterer_parallel.rs:165-175 [cluster_par] and 157-163 [cluster] at the start: one task per
    chunk, any number of them may run at the same time. *)
Definition cluster_par_start (m : memory) (n_threads : nat) (points : list P) : res system :=
  chunks ← cluster_par_chunks n_threads points;
  Ok (System m (cluster_slice_start <$> chunks) false).
Definition cluster_start (m : memory) (points : list P) : system :=
  System m [cluster_slice_start points] false.

(** The result, once all threads are done (172-174): [None] while one is still running or if one
    panicked. *)
Definition is_done (t : thread) : bool := match at_pc t with Done => true | _ => false end.
Definition result (s : system) : option (list (N * list P)) :=
  if (forallb is_done (threads s) && negb (undefined s))%bool
  then Some (concat (clusters <$> threads s)) else None.
End Parallel.
