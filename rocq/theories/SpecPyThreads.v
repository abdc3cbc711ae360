(** Specification vocabulary for the use of the Python classes from several threads. *)
From stdpp Require Import base list.
From Verif Require Import PyArgs SpecPyArgs.

(** The exception raised in Python, before a native method is called: only by a callable. *)
Inductive fails_on : dyn_analyzer -> pyval -> exn -> Prop :=
| fail_call f doc e : throws f doc e -> fails_on (DCallable f) doc e.
Inductive fails_on_all : dyn_analyzer -> pyval -> exn -> Prop :=
| fail_iter f docs : (~ exists vs, iterable docs vs) -> fails_on_all (DCallable f) docs ETypeError
| fail_one f docs vs e : iterable docs vs -> first_bad (returns f) (throws f) vs e -> fails_on_all (DCallable f) docs e.
Definition fails_before (an : dyn_analyzer) (o : dyn_op) (e : exn) : Prop :=
  match o with
  | DInsertDocument _ doc => fails_on an doc e
  | DParBulkInsertDocs _ _ _ docs => fails_on_all an docs e
  | DRemove _ => False
  end.

(** What a thread other than the owner gets: the exception of the callable, or PanicException. *)
Definition refused (fails : exn -> Prop) (e : exn) : Prop := fails e \/ (~ exists e', fails e') /\ e = EPanic.

(** The calls of one thread, in order. *)
Definition calls_of {A} (t : nat) (ops : list (nat * A)) : list A := (filter (fun p => p.1 = t) ops).*2.
