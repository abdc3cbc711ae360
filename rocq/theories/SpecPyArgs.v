(** Specification vocabulary for Python arguments: which objects count as an id, a document or a
    list, and which exception another object causes. *)
From stdpp Require Import base list gmap strings.
From Coq Require Import NArith ZArith.
From Verif Require Import Float Container MinHasher StringIndex PyMinHash PyArgs.

(** [whole v z]: [v] is an integer, or a bool, of value [z]. *)
Inductive whole : pyval -> Z -> Prop :=
| whole_int z : whole (VInt z) z
| whole_false : whole (VBool false) 0
| whole_true : whole (VBool true) 1.

(** [good] and [bad]: the value of an accepted object, the exception for another one. *)
Definition id_is (v : pyval) (z : Z) : Prop := whole v z /\ (- 2 ^ 63 <= z < 2 ^ 63)%Z.
Definition id_bad (v : pyval) (e : exn) : Prop :=
  (exists z, whole v z /\ ~ (- 2 ^ 63 <= z < 2 ^ 63)%Z /\ e = EOverflowError) \/
  (~ exists z, whole v z) /\ e = ETypeError.

(** A document is a str of characters that are no surrogates. *)
Definition plain (c : N) : Prop := ~ (55296 <= c < 57344)%N.
Definition doc_is (v : pyval) (t : text) : Prop := v = VStr t /\ Forall plain t.
Definition doc_bad (v : pyval) (e : exn) : Prop :=
  (exists t, v = VStr t /\ ~ Forall plain t /\ e = EUnicodeEncodeError) \/
  (~ exists t, v = VStr t) /\ e = ETypeError.

(** Sequences, and what a [for] loop can run over. *)
Definition sequence (v : pyval) (vs : list pyval) : Prop := v = VList vs \/ v = VTuple vs.
Definition iterable (v : pyval) (vs : list pyval) : Prop :=
  sequence v vs \/ v = VIter vs \/ exists t, v = VStr t /\ vs = (fun c => VStr [c]) <$> t.

(** The first element with an exception decides. *)
Definition first_bad {A B} (good : A -> B -> Prop) (bad : A -> exn -> Prop) (l : list A) (e : exn) : Prop :=
  exists l1 x l2, l = l1 ++ x :: l2 /\ Forall (fun a => exists b, good a b) l1 /\ bad x e.
Definition seq_is {B} (good : pyval -> B -> Prop) (v : pyval) (bs : list B) : Prop :=
  exists vs, sequence v vs /\ Forall2 good vs bs.
Definition seq_bad {B} (good : pyval -> B -> Prop) (bad : pyval -> exn -> Prop) (v : pyval) (e : exn) : Prop :=
  (exists vs, sequence v vs /\ first_bad good bad vs e) \/ (~ exists vs, sequence v vs) /\ e = ETypeError.

Definition returns (f : pyval -> outcome pyval) (d v : pyval) : Prop := f d = Ret v.
Definition throws (f : pyval -> outcome pyval) (d : pyval) (e : exn) : Prop := f d = Raise e.

(** The native call an accepted call makes. *)
Inductive accepted : dyn_analyzer -> dyn_op -> py_op -> Prop :=
| acc_insert id doc i d : id_is id i -> doc_is doc d ->
    accepted DNamed (DInsertDocument id doc) (InsertDocument i d)
| acc_insert_tokens f id doc i t ts : returns f doc t -> id_is id i -> seq_is doc_is t ts ->
    accepted (DCallable f) (DInsertDocument id doc) (InsertTokens i ts)
| acc_bulk s1 s2 ids docs is ds : seq_is id_is ids is -> seq_is doc_is docs ds ->
    accepted DNamed (DParBulkInsertDocs s1 s2 ids docs) (ParBulkInsertDocs s1 s2 is ds)
| acc_bulk_tokens f s1 s2 ids docs is vs ts tss : iterable docs vs -> Forall2 (returns f) vs ts ->
    seq_is id_is ids is -> Forall2 (seq_is doc_is) ts tss ->
    accepted (DCallable f) (DParBulkInsertDocs s1 s2 ids docs) (BulkInsertTokens is tss)
| acc_remove an id i : id_is id i -> accepted an (DRemove id) (PyRemove i).

(** The exception of a call that is not accepted. A callable runs on all documents before the
    ids are looked at. *)
Inductive rejected : dyn_analyzer -> dyn_op -> exn -> Prop :=
| rej_id id doc e : id_bad id e -> rejected DNamed (DInsertDocument id doc) e
| rej_doc id doc i e : id_is id i -> doc_bad doc e -> rejected DNamed (DInsertDocument id doc) e
| rej_callable f id doc e : throws f doc e -> rejected (DCallable f) (DInsertDocument id doc) e
| rej_callable_id f id doc t e : returns f doc t -> id_bad id e ->
    rejected (DCallable f) (DInsertDocument id doc) e
| rej_tokens f id doc t i e : returns f doc t -> id_is id i -> seq_bad doc_is doc_bad t e ->
    rejected (DCallable f) (DInsertDocument id doc) e
| rej_ids s1 s2 ids docs e : seq_bad id_is id_bad ids e ->
    rejected DNamed (DParBulkInsertDocs s1 s2 ids docs) e
| rej_docs s1 s2 ids docs is e : seq_is id_is ids is -> seq_bad doc_is doc_bad docs e ->
    rejected DNamed (DParBulkInsertDocs s1 s2 ids docs) e
| rej_not_iterable f s1 s2 ids docs : (~ exists vs, iterable docs vs) ->
    rejected (DCallable f) (DParBulkInsertDocs s1 s2 ids docs) ETypeError
| rej_some_callable f s1 s2 ids docs vs e : iterable docs vs -> first_bad (returns f) (throws f) vs e ->
    rejected (DCallable f) (DParBulkInsertDocs s1 s2 ids docs) e
| rej_callable_ids f s1 s2 ids docs vs ts e : iterable docs vs -> Forall2 (returns f) vs ts ->
    seq_bad id_is id_bad ids e -> rejected (DCallable f) (DParBulkInsertDocs s1 s2 ids docs) e
| rej_some_tokens f s1 s2 ids docs is vs ts e : iterable docs vs -> Forall2 (returns f) vs ts ->
    seq_is id_is ids is -> first_bad (seq_is doc_is) (seq_bad doc_is doc_bad) ts e ->
    rejected (DCallable f) (DParBulkInsertDocs s1 s2 ids docs) e
| rej_remove an id e : id_bad id e -> rejected an (DRemove id) e.

(** [agrees an an']: the analyzer of PyMinHash.v, seen as one of objects. *)
Definition agrees (an : analyzer) (an' : dyn_analyzer) : Prop :=
  match an, an' with
  | Named _, DNamed => True
  | Callable g, DCallable f => forall t, Forall plain t -> exists v, f (VStr t) = Ret v /\ seq_is doc_is v (g t)
  | _, _ => False
  end.

(** Calls with arguments of the declared types. *)
Inductive call_is : dyn_op -> class_op -> Prop :=
| ci_insert id doc i d : id_is id i -> doc_is doc d -> call_is (DInsertDocument id doc) (CInsertDocument i d)
| ci_bulk s1 s2 ids docs is ds : seq_is id_is ids is -> seq_is doc_is docs ds ->
    call_is (DParBulkInsertDocs s1 s2 ids docs) (CParBulkInsertDocs s1 s2 is ds)
| ci_remove id i : id_is id i -> call_is (DRemove id) (CRemove i).

(** The same object in both models. *)
Definition object_is (m : class_index) (m' : dyn_index) : Prop :=
  exists ck hk n an an', m = ClassIndex ck hk n an /\ m' = DynIndex ck hk n an' /\ agrees an an'.

(** A history in which every call has arguments of the declared types or is rejected; the list
    of the former. *)
Inductive mixed (an : dyn_analyzer) : list dyn_op -> list class_op -> Prop :=
| mixed_nil : mixed an [] []
| mixed_call o c ops cs : call_is o c -> mixed an ops cs -> mixed an (o :: ops) (c :: cs)
| mixed_rejected o e ops cs : rejected an o e -> mixed an ops cs -> mixed an (o :: ops) cs.

(** The native calls of a history. *)
Inductive calls (an : dyn_analyzer) : list dyn_op -> list py_op -> Prop :=
| calls_nil : calls an [] []
| calls_accepted o c ops cs : accepted an o c -> calls an ops cs -> calls an (o :: ops) (c :: cs)
| calls_rejected o e ops cs : rejected an o e -> calls an ops cs -> calls an (o :: ops) cs.

(** ** The constructor *)
Inductive hash_is : pyval -> hasher_kind -> Prop :=
| hash_8 v : equal_to v 8 -> hash_is v MinHasher8
| hash_16 v : equal_to v 16 -> hash_is v MinHasher16
| hash_32 v : equal_to v 32 -> hash_is v MinHasher32
| hash_64 v : equal_to v 64 -> hash_is v MinHasher64V1
with equal_to : pyval -> N -> Prop :=
| equal_int n : equal_to (VInt (Z.of_N n)) n
| equal_float x n : SFeqb x (f64_of_N n) = true -> equal_to (VFloat x) n.

Inductive threshold_is : pyval -> f64 -> Prop :=
| th_float x : f64_lt x (f64_of_N 0) = false -> f64_gt x (f64_of_N 1) = false -> threshold_is (VFloat x) x
| th_zero v : whole v 0 -> threshold_is v (f64_of_N 0)
| th_one v : whole v 1 -> threshold_is v (f64_of_N 1).

Inductive container_is : pyval -> container_kind -> Prop :=
| cont_set : container_is (VStr [115; 101; 116]%N) KHashSet
| cont_vec : container_is (VStr [118; 101; 99]%N) KVec
| cont_smallvec : container_is (VStr [115; 109; 97; 108; 108; 118; 101; 99]%N) (KSmallVec 2).

(** [None], or an object of the type. *)
Inductive opt_is {A} (good : pyval -> A -> Prop) : pyval -> option A -> Prop :=
| opt_none : opt_is good VNone None
| opt_some v a : v <> VNone -> good v a -> opt_is good v (Some a).

Definition count_is (v : pyval) (n : nat) : Prop := whole v (Z.of_nat n) /\ (Z.of_nat n < 2 ^ 64)%Z.
Inductive bool_is : pyval -> bool -> Prop := bool_b b : bool_is (VBool b) b.
Inductive pair_is : pyval -> nat * nat -> Prop :=
| pair_ab a b x y : count_is a x -> count_is b y -> pair_is (VTuple [a; b]) (x, y).

(** The analyzer: the name handed to the native class, and the analyzer kept. Names other than
    char all stand for word. *)
Inductive name_is : pyval -> string -> Prop :=
| name_char : name_is (VStr [99; 104; 97; 114]%N) "char"
| name_word cs : Forall plain cs -> cs <> [99; 104; 97; 114]%N -> name_is (VStr cs) "word".
Inductive analyzer_is : analyzer_arg -> option string -> dyn_analyzer -> Prop :=
| an_callable f : analyzer_is (ACallable f) (Some "word"%string) (DCallable f)
| an_object v n : opt_is name_is v n -> analyzer_is (AObject v) n DNamed.

(** The analyzer argument of PyMinHash.v, as an object. *)
Definition argument_is (an : analyzer) (a : analyzer_arg) : Prop :=
  match an, a with
  | Named s, AObject v => v = VStr (literal s)
  | Callable g, ACallable f => agrees (Callable g) (DCallable f)
  | _, _ => False
  end.
(** The same outcome of a constructor. *)
Definition outcome_is (r : made class_index) (r' : outcome (option dyn_index)) : Prop :=
  match r, r' with
  | Made m, Ret (Some m') => object_is m m'
  | ValueError, Raise e => e = EValueError
  | Diverges, Ret o => o = None
  | _, _ => False
  end.
