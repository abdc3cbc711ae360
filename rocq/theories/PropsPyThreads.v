(** Property theorems C95: the Python classes used from several threads. *)
From stdpp Require Import base list gmap strings.
From Coq Require Import NArith ZArith.
From Verif Require Import Base Float StringIndex PyTokenizer PyMinHash PySimHash PyArgs SpecPyArgs PyArgsFacts
  PySimArgs PyThreads SpecPyThreads PyThreadsFacts PropsPyArgs.

Section Threads.
Context (lower : text -> text)
        (shingles_str : list N -> nat -> option (list (list N)))
        (shingles_words : list (list N) -> nat -> option (list (list (list N)))).

(** ** MinHashStringIndex *)
Section MinHash.
Context (hash : token -> N) (bh : list N -> N).
Notation dstep := (dyn_step lower shingles_str shingles_words hash bh).
Notation drun := (dyn_run lower shingles_str shingles_words hash bh).
Notation tstep := (thread_step lower shingles_str shingles_words hash bh).
Notation trun := (thread_run lower shingles_str shingles_words hash bh).

(** In the thread that made the object a call is as in C92. *)
Theorem C95_owner (s : shared dyn_index) (o : dyn_op) :
  tstep (owner s) s o = (Shared (owner s) (dstep (object s) o).1, (dstep (object s) o).2).
Proof. exact (tstep_owner lower shingles_str shingles_words hash bh s o). Qed.

(** In any other thread it changes nothing and raises: what the callable raises, else
    PanicException, also if the arguments are of a wrong type. *)
Theorem C95_other (t : nat) (s : shared dyn_index) (o : dyn_op) : t <> owner s ->
  exists e, tstep t s o = (s, Some e) /\ refused (fails_before (d_analyzer (object s)) o) e.
Proof. exact (tstep_other lower shingles_str shingles_words hash bh t s o). Qed.

(** So after any calls of any threads the object is what its own thread made of it. *)
Theorem C95_history (s : shared dyn_index) (ops : list (nat * dyn_op)) :
  trun s ops = Shared (owner s) (drun (object s) (calls_of (owner s) ops)).
Proof. exact (trun_owner lower shingles_str shingles_words hash bh ops s). Qed.

Context (order : gset Z -> list Z) (sort : list (Z * f64) -> list (Z * f64)) (s1 s2 : list nat).
Notation tquery := (thread_query lower shingles_str shingles_words hash bh order).
Notation tquery_sim := (thread_query_return_similarity lower shingles_str shingles_words hash bh order sort).
Notation tbulk := (thread_par_bulk_query lower shingles_str shingles_words hash bh order s1 s2).
Notation tbulk_sim := (thread_par_bulk_query_return_similarity lower shingles_str shingles_words hash bh order sort s1 s2).

(** Queries. *)
Theorem C95_query (s : shared dyn_index) (ops : list (nat * dyn_op)) (v : pyval) :
  let t := owner s in
  let m := drun (object s) (calls_of t ops) in
  tquery t (trun s ops) v = dyn_query lower shingles_str shingles_words hash bh order m v /\
  tquery_sim t (trun s ops) v = dyn_query_return_similarity lower shingles_str shingles_words hash bh order sort m v /\
  tbulk t (trun s ops) v = dyn_par_bulk_query lower shingles_str shingles_words hash bh order s1 s2 m v /\
  tbulk_sim t (trun s ops) v =
    dyn_par_bulk_query_return_similarity lower shingles_str shingles_words hash bh order sort s1 s2 m v /\
  thread_size t (trun s ops) = Ret (py_size (d_container m) (d_native m)).
Proof.
  cbn zeta. rewrite trun_owner. set (m := drun _ _). set (s' := Shared (owner s) m).
  destruct (tquery_owner lower shingles_str shingles_words hash bh order sort s' v) as [H1 H2].
  destruct (tbulk_owner lower shingles_str shingles_words hash bh order sort s1 s2 s' v) as [H3 H4].
  split; [exact H1|]. split; [exact H2|]. split; [exact H3|]. split; [exact H4|].
  exact (borrow_owner s' (Ret tt) (fun m => Ret (py_size (d_container m) (d_native m))) (fun e H => ltac:(discriminate H))).
Qed.
Theorem C95_query_other (t : nat) (s : shared dyn_index) (v : pyval) : t <> owner s ->
  let an := d_analyzer (object s) in
  (exists e, tquery t s v = Raise e /\ tquery_sim t s v = Raise e /\ refused (fails_on an v) e) /\
  (exists e, tbulk t s v = Raise e /\ tbulk_sim t s v = Raise e /\ refused (fails_on_all an v) e) /\
  thread_size t s = Raise EPanic.
Proof.
  intros Ht. cbn zeta. unfold thread_query, thread_query_return_similarity, thread_par_bulk_query,
    thread_par_bulk_query_return_similarity, thread_size, borrow.
  assert (E : (t =? owner s)%nat = false) by (by apply Nat.eqb_neq). rewrite E. split; [|split; [|done]].
  - destruct (analyze _ v) as [[]|e] eqn:Ea; cbn [mbind outcome_bind]; eexists; (split; [done|]); (split; [done|]).
    + right. split; [|done]. intros [e He]. apply analyze_raise in He. congruence.
    + left. by apply analyze_raise.
  - destruct (analyze_all _ v) as [[]|e] eqn:Ea; cbn [mbind outcome_bind]; eexists; (split; [done|]); (split; [done|]).
    + right. split; [|done]. intros [e He]. apply analyze_all_raise in He. congruence.
    + left. by apply analyze_all_raise.
Qed.
End MinHash.

(** ** SimHashStringIndex *)
Section SimHash.
Context (W : nat) (hash : token -> N).
Notation dinsert := (sdyn_insert lower shingles_str shingles_words W hash).
Notation drun := (sdyn_run lower shingles_str shingles_words W hash).
Notation tinsert := (sthread_insert lower shingles_str shingles_words W hash).
Notation trun := (sthread_run lower shingles_str shingles_words W hash).

Theorem C95_sim_insert (t : nat) (s : shared sdyn_index) (id doc : pyval) :
  (t = owner s -> tinsert t s id doc = (Shared t (dinsert (object s) id doc).1, (dinsert (object s) id doc).2)) /\
  (t <> owner s -> exists e, tinsert t s id doc = (s, Some e) /\ refused (fails_on (sd_analyzer (object s)) doc) e).
Proof.
  split; [intros ->; exact (tinsert_owner lower shingles_str shingles_words W hash s id doc)
         |exact (tinsert_other lower shingles_str shingles_words W hash t s id doc)].
Qed.
Theorem C95_sim_history (s : shared sdyn_index) (l : list (nat * (pyval * pyval))) :
  trun s l = Shared (owner s) (drun (object s) (calls_of (owner s) l)).
Proof. exact (strun_owner lower shingles_str shingles_words W hash l s). Qed.

Context (order : gset Z -> list Z) (sort : list (Z * nat) -> list (Z * nat)) (s1 s2 : list nat).
Notation tquery := (sthread_query lower shingles_str shingles_words W hash order sort s1 s2).
Notation tbulk := (sthread_par_bulk_query lower shingles_str shingles_words W hash order sort s1 s2).
Notation dquery := (sdyn_query lower shingles_str shingles_words W hash order sort s1 s2).
Notation dbulk := (sdyn_par_bulk_query lower shingles_str shingles_words W hash order sort s1 s2).

Theorem C95_sim_query (s : shared sdyn_index) (v : pyval) (b : bool) :
  tquery (owner s) s v b = dquery (object s) v b /\ tbulk (owner s) s v b = dbulk (object s) v b.
Proof.
  exact (conj (stquery_owner lower shingles_str shingles_words W hash order sort s1 s2 s v b)
              (stbulk_owner lower shingles_str shingles_words W hash order sort s1 s2 s v b)).
Qed.
(** No query of another thread returns. *)
Theorem C95_sim_query_other (t : nat) (s : shared sdyn_index) (v : pyval) (b : bool) : t <> owner s ->
  (exists e, tquery t s v b = Raise e /\ (b = false -> refused (fails_on (sd_analyzer (object s)) v) e)) /\
  (exists e, tbulk t s v b = Raise e /\ (b = false -> sd_analyzer (object s) = DNamed -> e = EPanic)).
Proof.
  intros Ht. split.
  - destruct b; [|destruct (stquery_other lower shingles_str shingles_words W hash order sort s1 s2 t s v Ht) as (e & ? & ?); by exists e].
    destruct s as [t' [n [|f]]]; (eexists; split; [reflexivity|discriminate]).
  - destruct s as [t' [n [|f]]]; unfold sthread_par_bulk_query; cbn [object sd_analyzer].
    + destruct b; [eexists; split; [reflexivity|discriminate]|].
      exists EPanic. split; [|done]. unfold borrow. apply Nat.eqb_neq in Ht. cbn [owner] in *. by rewrite Ht.
    + unfold sdyn_par_bulk_query. cbn [sd_analyzer].
      destruct (py_iter v) as [ds|e]; cbn [mbind outcome_bind]; [|by exists e].
      destruct (mapM f ds) as [ts|e]; cbn [mbind outcome_bind]; [|by exists e].
      destruct b; (eexists; split; [reflexivity|done]).
Qed.
End SimHash.
End Threads.

(** ** Cases *)
Notation demo_trun := (thread_run (fun t => t) (fun _ _ => None) (fun _ _ => None) (fun _ => 0%N) (fun _ => 0%N)).
Notation demo_tstep := (thread_step (fun t => t) (fun _ _ => None) (fun _ _ => None) (fun _ => 0%N) (fun _ => 0%N)).
Definition demo_shared (an : dyn_analyzer) : shared dyn_index := Shared 1 (demo_index an).
Definition two_threads : list (nat * dyn_op) :=
  [(1, DInsertDocument (VInt 5) (VStr [97]%N)); (2, DInsertDocument (VInt 6) (VStr [97]%N));
   (1, DInsertDocument (VInt 7) (VStr [97]%N)); (2, DRemove (VInt 5))].

(** Two threads: the two insertions of thread 1 count. In thread 2 a callable that raises comes
    first, a bad id does not. *)
Example C95_example :
  thread_size 1 (demo_trun (demo_shared DNamed) two_threads) = Ret 2 /\
  calls_of 1 two_threads = [DInsertDocument (VInt 5) (VStr [97]%N); DInsertDocument (VInt 7) (VStr [97]%N)] /\
  (demo_tstep 2 (demo_shared demo_analyzer) (DInsertDocument (VInt 5) (VStr []))).2 = Some (EUser 0) /\
  (demo_tstep 2 (demo_shared demo_analyzer) (DInsertDocument VNone (VStr [97]%N))).2 = Some EPanic /\
  (demo_tstep 1 (demo_shared demo_analyzer) (DInsertDocument VNone (VStr [97]%N))).2 = Some ETypeError.
Proof. repeat (split; [vm_compute; reflexivity|]). vm_compute; reflexivity. Qed.

(** A document given to an index by a thread that did not make it is not stored, though its
    arguments are good. *)
Theorem C95_any_thread_refuted : exists (s : shared dyn_index) (t : nat) (o : dyn_op) (c : py_op),
  accepted (d_analyzer (object s)) o c /\ (demo_tstep t s o) = (s, Some EPanic) /\
  (demo_step (object s) o).2 = None /\ demo_size (demo_step (object s) o).1 = 1.
Proof.
  exists (demo_shared DNamed), 2, (DInsertDocument (VInt 5) (VStr [97]%N)), (InsertDocument 5 [97]%N).
  split; [apply dyn_call_ret; vm_compute; reflexivity|]. split; [reflexivity|]. split; vm_compute; reflexivity.
Qed.

Print Assumptions C95_owner.
Print Assumptions C95_other.
Print Assumptions C95_history.
Print Assumptions C95_query.
Print Assumptions C95_query_other.
Print Assumptions C95_sim_insert.
Print Assumptions C95_sim_history.
Print Assumptions C95_sim_query.
Print Assumptions C95_sim_query_other.
Print Assumptions C95_any_thread_refuted.
