(** Model of the Python classes used from several threads. Definitions only.

    The native classes are declared [#[pyclass(unsendable)]] (py-gaoya/src/min_hash.rs:22,
    sim_hash.rs:13): pyo3 0.18.3 remembers the thread that made the object and panics when another
    thread borrows it, which happens before the arguments are converted. The native methods keep
    the GIL, so an execution is the sequence of the native calls of all threads; what Python
    evaluates before a native call does not depend on other threads. Threads are numbers. The
    destruction of an object is not modelled. *)
From stdpp Require Import base list gmap strings.
From Coq Require Import NArith ZArith.
From Verif Require Import Base Float StringIndex PyTokenizer PyMinHash PySimHash PyArgs PySimArgs.

(** An object with the thread that made it. *)
Record shared (A : Type) := Shared { owner : nat; object : A }.
Arguments Shared {A}.
Arguments owner {A}.
Arguments object {A}.

(** A native call of thread [t] after [before], the evaluation of its arguments in Python. *)
Definition borrow {A B} (t : nat) (s : shared A) (before : outcome unit) (call : A -> outcome B) : outcome B :=
  _ ← before; if (t =? owner s)%nat then call (object s) else Raise EPanic.

(** minhash.py:142, 222: what Python evaluates before the native call. *)
Definition analyze (an : dyn_analyzer) (doc : pyval) : outcome unit :=
  match an with DCallable f => _ ← f doc; Ret tt | DNamed => Ret tt end.
Definition analyze_all (an : dyn_analyzer) (docs : pyval) : outcome unit :=
  match an with DCallable f => ds ← py_iter docs; _ ← mapM f ds; Ret tt | DNamed => Ret tt end.
Definition dyn_before (an : dyn_analyzer) (o : dyn_op) : outcome unit :=
  match o with
  | DInsertDocument _ doc => analyze an doc
  | DParBulkInsertDocs _ _ _ docs => analyze_all an docs
  | DRemove _ => Ret tt
  end.

Section Threads.
Context (lower : text -> text)
        (shingles_str : list N -> nat -> option (list (list N)))
        (shingles_words : list (list N) -> nat -> option (list (list (list N)))).

Section MinHash.
Context (hash : token -> N) (bh : list N -> N).

(** minhash.py:130-145, 207-235 called by thread [t]. *)
Definition thread_step (t : nat) (s : shared dyn_index) (o : dyn_op) : shared dyn_index * option exn :=
  match borrow t s (dyn_before (d_analyzer (object s)) o) Ret with
  | Ret m => let r := dyn_step lower shingles_str shingles_words hash bh m o in (Shared (owner s) r.1, r.2)
  | Raise e => (s, Some e)
  end.
Definition thread_run (s : shared dyn_index) (ops : list (nat * dyn_op)) : shared dyn_index :=
  fold_left (fun s p => (thread_step p.1 s p.2).1) ops s.

Context (order : gset Z -> list Z) (sort : list (Z * f64) -> list (Z * f64)).

(** minhash.py:147-203. *)
Definition thread_query (t : nat) (s : shared dyn_index) (doc : pyval) : outcome (list Z) :=
  borrow t s (analyze (d_analyzer (object s)) doc)
    (fun m => dyn_query lower shingles_str shingles_words hash bh order m doc).
Definition thread_query_return_similarity (t : nat) (s : shared dyn_index) (doc : pyval) : outcome (list (Z * f64)) :=
  borrow t s (analyze (d_analyzer (object s)) doc)
    (fun m => dyn_query_return_similarity lower shingles_str shingles_words hash bh order sort m doc).
Definition thread_par_bulk_query (sched1 sched2 : list nat) (t : nat) (s : shared dyn_index) (docs : pyval)
  : outcome (list (list Z)) :=
  borrow t s (analyze_all (d_analyzer (object s)) docs)
    (fun m => dyn_par_bulk_query lower shingles_str shingles_words hash bh order sched1 sched2 m docs).
Definition thread_par_bulk_query_return_similarity (sched1 sched2 : list nat) (t : nat) (s : shared dyn_index)
    (docs : pyval) : outcome (list (list (Z * f64))) :=
  borrow t s (analyze_all (d_analyzer (object s)) docs)
    (fun m => dyn_par_bulk_query_return_similarity lower shingles_str shingles_words hash bh order sort
                sched1 sched2 m docs).

(** minhash.py:237-241 [size]. *)
Definition thread_size (t : nat) (s : shared dyn_index) : outcome nat :=
  borrow t s (Ret tt) (fun m => Ret (py_size (d_container m) (d_native m))).
End MinHash.

Section SimHash.
Context (W : nat) (hash : token -> N).

(** simhash.py:69-83. *)
Definition sthread_insert (t : nat) (s : shared sdyn_index) (id doc : pyval) : shared sdyn_index * option exn :=
  match borrow t s (analyze (sd_analyzer (object s)) doc) Ret with
  | Ret m => let r := sdyn_insert lower shingles_str shingles_words W hash m id doc in (Shared (owner s) r.1, r.2)
  | Raise e => (s, Some e)
  end.
Definition sthread_run (s : shared sdyn_index) (l : list (nat * (pyval * pyval))) : shared sdyn_index :=
  fold_left (fun s p => (sthread_insert p.1 s p.2.1 p.2.2).1) l s.

Context (order : gset Z -> list Z) (sort : list (Z * nat) -> list (Z * nat)) (sched1 sched2 : list nat).

(** simhash.py:85-112: with distances the look-up of the method fails in any thread. *)
Definition sthread_query (t : nat) (s : shared sdyn_index) (doc : pyval) (return_hamming_distance : bool)
  : outcome py_value :=
  let native := sdyn_query lower shingles_str shingles_words W hash order sort sched1 sched2 in
  if return_hamming_distance then native (object s) doc true
  else borrow t s (analyze (sd_analyzer (object s)) doc) (fun m => native m doc false).

(** simhash.py:114-142: only one of the four calls exists. *)
Definition sthread_par_bulk_query (t : nat) (s : shared sdyn_index) (docs : pyval) (return_similarity : bool)
  : outcome py_value :=
  let native := sdyn_par_bulk_query lower shingles_str shingles_words W hash order sort sched1 sched2 in
  match sd_analyzer (object s), return_similarity with
  | DNamed, false => borrow t s (Ret tt) (fun m => native m docs false)
  | _, _ => native (object s) docs return_similarity
  end.
End SimHash.
End Threads.
