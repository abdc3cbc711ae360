(** Lemmas about the use of the Python classes from several threads. *)
From stdpp Require Import base list gmap strings.
From Coq Require Import NArith ZArith.
From Verif Require Import Base Float StringIndex PyTokenizer PyMinHash PySimHash PyArgs SpecPyArgs PyArgsFacts
  PySimArgs PyThreads SpecPyThreads.

Lemma analyze_raise an doc e : analyze an doc = Raise e <-> fails_on an doc e.
Proof.
  destruct an as [|f]; cbn [analyze].
  - split; [done|]. intros H; inversion H.
  - rewrite bind_raise. split.
    + intros [H|(a & _ & [=])]. by constructor.
    + intros H; inversion H; subst. by left.
Qed.
Lemma analyze_all_raise an docs e : analyze_all an docs = Raise e <-> fails_on_all an docs e.
Proof.
  destruct an as [|f]; cbn [analyze_all].
  - split; [done|]. intros H; inversion H.
  - rewrite bind_raise. split.
    + intros [H|(vs & H1 & H)].
      * apply iter_raise in H as [H ->]. by constructor.
      * apply bind_raise in H as [H|(a & _ & [=])]. apply iter_ret in H1.
        apply (mapM_raise _ _ _ _ _ (call_decides f)) in H. by econstructor.
    + intros H; inversion H; subst.
      * left. by apply iter_raise.
      * right. exists vs. split; [by apply iter_ret|]. apply bind_raise. left.
        by apply (mapM_raise _ _ _ _ _ (call_decides f)).
Qed.
Lemma before_raise an o e : dyn_before an o = Raise e <-> fails_before an o e.
Proof. destruct o; cbn [dyn_before fails_before]; [apply analyze_raise|apply analyze_all_raise|done]. Qed.

(** What fails before the native call also makes the call of PyArgs.v fail. *)
Lemma before_call an o e : dyn_before an o = Raise e -> dyn_call an o = Raise e.
Proof.
  destruct o as [id doc|s1 s2 ids docs|id], an as [|f]; cbn [dyn_before analyze analyze_all dyn_call]; try done.
  - intros H. apply bind_raise in H as [H|(a & _ & [=])]. by rewrite H.
  - intros H. apply bind_raise in H as [H|(vs & H1 & H)]; [by rewrite H|].
    apply bind_raise in H as [H|(a & _ & [=])]. rewrite H1. cbn [mbind outcome_bind]. by rewrite H.
Qed.

Lemma borrow_owner {A B} (s : shared A) before (call : A -> outcome B) :
  (forall e, before = Raise e -> call (object s) = Raise e) -> borrow (owner s) s before call = call (object s).
Proof.
  unfold borrow. rewrite Nat.eqb_refl. destruct before as [[]|e]; [done|]. intros H. by rewrite (H e).
Qed.
Lemma borrow_other {A B} (s : shared A) before (call : A -> outcome B) t (fails : exn -> Prop) :
  t <> owner s -> (forall e, before = Raise e <-> fails e) ->
  exists e, borrow t s before call = Raise e /\ refused fails e.
Proof.
  intros Ht Hf. unfold borrow. apply Nat.eqb_neq in Ht as ->. destruct before as [[]|e]; cbn [mbind outcome_bind].
  - exists EPanic. split; [done|]. right. split; [|done]. intros [e He]. by apply Hf in He.
  - exists e. split; [done|]. left. by apply Hf.
Qed.
Lemma refused_det (fails : exn -> Prop) e e' : (forall a b, fails a -> fails b -> a = b) ->
  refused fails e -> refused fails e' -> e = e'.
Proof.
  intros Hd [H|[Hn ->]] [H'|[Hn' ->]]; [by apply Hd|exfalso; eauto..|done].
Qed.

Section Facts.
Context (lower : text -> text)
        (shingles_str : list N -> nat -> option (list (list N)))
        (shingles_words : list (list N) -> nat -> option (list (list (list N)))).

Section MinHash.
Context (hash : token -> N) (bh : list N -> N).
Notation dstep := (dyn_step lower shingles_str shingles_words hash bh).
Notation drun := (dyn_run lower shingles_str shingles_words hash bh).
Notation tstep := (thread_step lower shingles_str shingles_words hash bh).
Notation trun := (thread_run lower shingles_str shingles_words hash bh).

Lemma tstep_owner s o : tstep (owner s) s o = (Shared (owner s) (dstep (object s) o).1, (dstep (object s) o).2).
Proof.
  unfold thread_step, borrow. rewrite Nat.eqb_refl.
  destruct (dyn_before _ o) as [[]|e] eqn:E; cbn [mbind outcome_bind]; [done|].
  apply before_call in E. unfold dyn_step. rewrite E. by destruct s.
Qed.
Lemma tstep_other t s o : t <> owner s ->
  exists e, tstep t s o = (s, Some e) /\ refused (fails_before (d_analyzer (object s)) o) e.
Proof.
  intros Ht. destruct (borrow_other s (dyn_before (d_analyzer (object s)) o) Ret t _ Ht
    (before_raise _ _)) as (e & He & Hr).
  exists e. split; [|done]. unfold thread_step. by rewrite He.
Qed.
Lemma trun_owner ops : forall s, trun s ops = Shared (owner s) (drun (object s) (calls_of (owner s) ops)).
Proof.
  induction ops as [|[t o] ops IH]; intros s; [by destruct s|].
  change (trun s ((t, o) :: ops)) with (trun (tstep t s o).1 ops). rewrite IH.
  unfold calls_of. rewrite filter_cons. cbn [fst].
  destruct (decide (t = owner s)) as [->|Ht].
  - by rewrite tstep_owner.
  - by destruct (tstep_other t s o Ht) as (e & -> & _).
Qed.

Context (order : gset Z -> list Z) (sort : list (Z * f64) -> list (Z * f64)).
Lemma tquery_owner s doc :
  thread_query lower shingles_str shingles_words hash bh order (owner s) s doc =
    dyn_query lower shingles_str shingles_words hash bh order (object s) doc /\
  thread_query_return_similarity lower shingles_str shingles_words hash bh order sort (owner s) s doc =
    dyn_query_return_similarity lower shingles_str shingles_words hash bh order sort (object s) doc.
Proof.
  unfold thread_query, thread_query_return_similarity.
  split; (rewrite borrow_owner; [done|]); intros e; unfold dyn_query, dyn_query_return_similarity;
    destruct (d_analyzer (object s)) as [|f]; cbn [analyze]; try done;
    intros H; apply bind_raise in H as [H|(a & _ & [=])]; by rewrite H.
Qed.
Lemma tbulk_owner s1 s2 s docs :
  thread_par_bulk_query lower shingles_str shingles_words hash bh order s1 s2 (owner s) s docs =
    dyn_par_bulk_query lower shingles_str shingles_words hash bh order s1 s2 (object s) docs /\
  thread_par_bulk_query_return_similarity lower shingles_str shingles_words hash bh order sort s1 s2 (owner s) s docs =
    dyn_par_bulk_query_return_similarity lower shingles_str shingles_words hash bh order sort s1 s2 (object s) docs.
Proof.
  unfold thread_par_bulk_query, thread_par_bulk_query_return_similarity.
  split; (rewrite borrow_owner; [done|]); intros e; unfold dyn_par_bulk_query, dyn_par_bulk_query_return_similarity;
    destruct (d_analyzer (object s)) as [|f]; cbn [analyze_all]; try done;
    intros H; (apply bind_raise in H as [H|(vs & H1 & H)]; [by rewrite H|]);
    apply bind_raise in H as [H|(a & _ & [=])]; rewrite H1; cbn [mbind outcome_bind]; by rewrite H.
Qed.
End MinHash.

Section SimHash.
Context (W : nat) (hash : token -> N).
Notation dinsert := (sdyn_insert lower shingles_str shingles_words W hash).
Notation drun := (sdyn_run lower shingles_str shingles_words W hash).
Notation tinsert := (sthread_insert lower shingles_str shingles_words W hash).
Notation trun := (sthread_run lower shingles_str shingles_words W hash).

Lemma tinsert_owner s id doc :
  tinsert (owner s) s id doc = (Shared (owner s) (dinsert (object s) id doc).1, (dinsert (object s) id doc).2).
Proof.
  unfold sthread_insert, borrow. rewrite Nat.eqb_refl.
  destruct (analyze _ doc) as [[]|e] eqn:E; cbn [mbind outcome_bind]; [done|].
  unfold sdyn_insert. destruct s as [t [n an]]. cbn [object owner sd_analyzer] in *.
  destruct an as [|f]; cbn [analyze sdyn_call] in *; [done|].
  apply bind_raise in E as [E|(a & _ & [=])]. by rewrite E.
Qed.
Lemma tinsert_other t s id doc : t <> owner s ->
  exists e, tinsert t s id doc = (s, Some e) /\ refused (fails_on (sd_analyzer (object s)) doc) e.
Proof.
  intros Ht. destruct (borrow_other s (analyze (sd_analyzer (object s)) doc) Ret t _ Ht
    (analyze_raise _ _)) as (e & He & Hr).
  exists e. split; [|done]. unfold sthread_insert. by rewrite He.
Qed.
Lemma strun_owner l : forall s, trun s l = Shared (owner s) (drun (object s) (calls_of (owner s) l)).
Proof.
  induction l as [|[t [id doc]] l IH]; intros s; [by destruct s|].
  change (trun s ((t, (id, doc)) :: l)) with (trun (tinsert t s id doc).1 l). rewrite IH.
  unfold calls_of. rewrite filter_cons. cbn [fst].
  destruct (decide (t = owner s)) as [->|Ht].
  - by rewrite tinsert_owner.
  - by destruct (tinsert_other t s id doc Ht) as (e & -> & _).
Qed.

Context (order : gset Z -> list Z) (sort : list (Z * nat) -> list (Z * nat)) (s1 s2 : list nat).
Notation tquery := (sthread_query lower shingles_str shingles_words W hash order sort s1 s2).
Notation tbulk := (sthread_par_bulk_query lower shingles_str shingles_words W hash order sort s1 s2).
Notation dquery := (sdyn_query lower shingles_str shingles_words W hash order sort s1 s2).
Notation dbulk := (sdyn_par_bulk_query lower shingles_str shingles_words W hash order sort s1 s2).

Lemma stquery_owner s doc b : tquery (owner s) s doc b = dquery (object s) doc b.
Proof.
  unfold sthread_query. destruct b; [done|]. rewrite borrow_owner; [done|]. intros e.
  destruct s as [t [n [|f]]]; cbn [object sd_analyzer analyze]; [done|].
  intros H. apply bind_raise in H as [H|(a & _ & [=])].
  change (dquery (SDynIndex n (DCallable f)) doc false) with
    (v ← f doc; ts ← to_vec to_str v; l ← of_res (ps_query_tokens W hash order n ts); Ret (VIds l)).
  by rewrite H.
Qed.
Lemma stbulk_owner s docs b : tbulk (owner s) s docs b = dbulk (object s) docs b.
Proof.
  unfold sthread_par_bulk_query. destruct s as [t [n [|f]]], b; cbn [object sd_analyzer]; try done.
  change t with (owner (Shared t (SDynIndex n DNamed))) at 1. by rewrite borrow_owner.
Qed.
Lemma stquery_other t s doc : t <> owner s ->
  exists e, tquery t s doc false = Raise e /\ refused (fails_on (sd_analyzer (object s)) doc) e.
Proof. intros Ht. apply (borrow_other s _ _ t _ Ht). apply analyze_raise. Qed.
End SimHash.
End Facts.
