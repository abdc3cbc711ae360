(** Property theorems C92: calls of the Python class with arbitrary objects. *)
From stdpp Require Import base list gmap strings.
From Coq Require Import NArith ZArith.
From Verif Require Import Base Float Container MinHasher StringIndex PyTokenizer PyMinHash
  PyArgs SpecPyArgs PyArgsFacts.

(** Which calls reach the native class, with what, and which exception the others raise. *)
Theorem C92_accepted (an : dyn_analyzer) (o : dyn_op) (c : py_op) : dyn_call an o = Ret c <-> accepted an o c.
Proof. exact (dyn_call_ret an o c). Qed.

Theorem C92_rejected (an : dyn_analyzer) (o : dyn_op) (e : exn) : dyn_call an o = Raise e <-> rejected an o e.
Proof. exact (dyn_call_raise an o e). Qed.

Section Calls.
Context (lower : text -> text)
        (shingles_str : list N -> nat -> option (list (list N)))
        (shingles_words : list (list N) -> nat -> option (list (list (list N)))).
Context (hash : token -> N) (bh : list N -> N).
Notation dstep := (dyn_step lower shingles_str shingles_words hash bh).
Notation drun := (dyn_run lower shingles_str shingles_words hash bh).
Notation cstep := (class_step lower shingles_str shingles_words hash bh).
Notation crun := (class_run lower shingles_str shingles_words hash bh).

(** A rejected call does nothing; so does every call that raises something else than
    PanicException. *)
Theorem C92_unchanged (m : dyn_index) (o : dyn_op) (e : exn) :
  (rejected (d_analyzer m) o e -> dstep m o = (m, Some e)) /\
  ((dstep m o).2 = Some e -> e <> EPanic -> (dstep m o).1 = m).
Proof. exact (conj (step_rejected lower shingles_str shingles_words hash bh m o e)
                   (step_unchanged lower shingles_str shingles_words hash bh m o e)). Qed.

(** Objects of the declared types: the calls of C57. *)
Theorem C92_typed (m : class_index) (m' : dyn_index) (o : dyn_op) (c : class_op) : object_is m m' -> call_is o c ->
  object_is (cstep m c).1 (dstep m' o).1 /\
  (dstep m' o).2 = (if (cstep m c).2 then Some EPanic else None).
Proof. exact (step_typed lower shingles_str shingles_words hash bh m m' o c). Qed.

(** In a history the rejected calls can be left out. *)
Theorem C92_history (m : class_index) (m' : dyn_index) (ops : list dyn_op) (cs : list class_op) :
  object_is m m' -> mixed (d_analyzer m') ops cs -> object_is (crun m cs) (drun m' ops).
Proof. exact (fun Ho => run_mixed lower shingles_str shingles_words hash bh _ m m' ops cs Ho eq_refl). Qed.

(** With a named analyzer every history is one of these. *)
Theorem C92_named (ops : list dyn_op) : exists cs, mixed DNamed ops cs.
Proof. exact (named_mixed ops). Qed.

(** With any analyzer the object is what the accepted calls made of it. *)
Theorem C92_native (m : dyn_index) (ops : list dyn_op) : exists cs, calls (d_analyzer m) ops cs /\
  drun m ops = DynIndex (d_container m) (d_hash m)
    (py_run lower shingles_str shingles_words hash bh (d_container m) (d_hash m) (d_native m) cs) (d_analyzer m).
Proof. exact (run_calls lower shingles_str shingles_words hash bh m ops). Qed.

Section Queries.
Context (order : gset Z -> list Z) (sort : list (Z * f64) -> list (Z * f64)).

Theorem C92_query (m : class_index) (m' : dyn_index) (v : pyval) (d : text) : object_is m m' -> doc_is v d ->
  dyn_query lower shingles_str shingles_words hash bh order m' v =
    of_res (class_query lower shingles_str shingles_words hash bh order m d) /\
  dyn_query_return_similarity lower shingles_str shingles_words hash bh order sort m' v =
    of_res (class_query_return_similarity lower shingles_str shingles_words hash bh order sort m d).
Proof. exact (query_typed lower shingles_str shingles_words hash bh order sort m m' v d). Qed.

Theorem C92_bulk_query (m : class_index) (m' : dyn_index) (s1 s2 : list nat) (v : pyval) (ds : list text) :
  object_is m m' -> seq_is doc_is v ds ->
  dyn_par_bulk_query lower shingles_str shingles_words hash bh order s1 s2 m' v =
    of_res (class_par_bulk_query lower shingles_str shingles_words hash bh order s1 s2 m ds) /\
  dyn_par_bulk_query_return_similarity lower shingles_str shingles_words hash bh order sort s1 s2 m' v =
    of_res (class_par_bulk_query_return_similarity lower shingles_str shingles_words hash bh order sort s1 s2 m ds).
Proof. exact (bulk_typed lower shingles_str shingles_words hash bh order sort m m' s1 s2 v ds). Qed.

(** A query with another object raises, whatever is stored. *)
Theorem C92_bad_query (m : dyn_index) (v : pyval) (e : exn) : d_analyzer m = DNamed -> doc_bad v e ->
  dyn_query lower shingles_str shingles_words hash bh order m v = Raise e /\
  dyn_query_return_similarity lower shingles_str shingles_words hash bh order sort m v = Raise e.
Proof.
  intros Ha Hb. apply str_decides in Hb. unfold dyn_query, dyn_query_return_similarity. by rewrite Ha, Hb.
Qed.
Theorem C92_bad_bulk_query (m : dyn_index) (s1 s2 : list nat) (v : pyval) (e : exn) :
  d_analyzer m = DNamed -> seq_bad doc_is doc_bad v e ->
  dyn_par_bulk_query lower shingles_str shingles_words hash bh order s1 s2 m v = Raise e /\
  dyn_par_bulk_query_return_similarity lower shingles_str shingles_words hash bh order sort s1 s2 m v = Raise e.
Proof.
  intros Ha Hb. apply (vec_decides _ _ _ str_decides) in Hb.
  unfold dyn_par_bulk_query, dyn_par_bulk_query_return_similarity. by rewrite Ha, Hb.
Qed.
End Queries.
End Calls.

(** The constructor: accepted arguments give the native constructor of C53, others raise. *)
Section Constructor.
Context (powf : f64 -> f64 -> f64) (draws : N -> nat -> nat -> N).
Context (hash_size th num_bands band_size num_hashes : pyval) (an : analyzer_arg) (lowercase range id_container : pyval).

Theorem C92_new (hk : hasher_kind) (x : f64) (ck : container_kind) (nb bw nh : option nat) (name : option string)
    (an' : dyn_analyzer) (lc : option bool) (r : option (nat * nat)) :
  hash_is hash_size hk -> threshold_is th x -> container_is id_container ck ->
  opt_is count_is num_bands nb -> opt_is count_is band_size bw -> opt_is count_is num_hashes nh ->
  analyzer_is an name an' -> opt_is bool_is lowercase lc -> opt_is pair_is range r ->
  dyn_new powf draws hash_size th num_bands band_size num_hashes an lowercase range id_container =
  match py_new powf draws ck x nb bw nh name lc r with
  | Made m => Ret (Some (DynIndex ck hk m an'))
  | ValueError => Raise EValueError
  | Diverges => Ret None
  end.
Proof. exact (new_good powf draws _ _ _ _ _ _ _ _ _ hk x ck nb bw nh name an' lc r). Qed.

Theorem C92_new_rejected :
  (~ exists hk x ck nb bw nh name an' lc r,
    hash_is hash_size hk /\ threshold_is th x /\ container_is id_container ck /\
    opt_is count_is num_bands nb /\ opt_is count_is band_size bw /\ opt_is count_is num_hashes nh /\
    analyzer_is an name an' /\ opt_is bool_is lowercase lc /\ opt_is pair_is range r) ->
  exists e, dyn_new powf draws hash_size th num_bands band_size num_hashes an lowercase range id_container = Raise e /\
    e <> EPanic /\ forall n, e <> EUser n.
Proof. exact (new_bad powf draws _ _ _ _ _ _ _ _ _). Qed.

Theorem C92_new_class (z : Z) (x : f64) (nb bw nh : option nat) (a : analyzer) (lc : option bool)
    (r : option (nat * nat)) (c : string) :
  opt_is count_is num_bands nb -> opt_is count_is band_size bw -> opt_is count_is num_hashes nh ->
  argument_is a an -> opt_is bool_is lowercase lc -> opt_is pair_is range r ->
  outcome_is (class_new powf draws z x nb bw nh a lc r c)
    (dyn_new powf draws (VInt z) (VFloat x) num_bands band_size num_hashes an lowercase range (VStr (literal c))).
Proof. exact (new_class powf draws z x _ _ _ _ _ _ c nb bw nh a lc r). Qed.
End Constructor.

(** ** Cases *)
Notation doc := (VStr [97; 98]%N).
Definition demo_analyzer : dyn_analyzer :=
  DCallable (fun v => match v with VStr [] => Raise (EUser 0) | _ => Ret (VTuple [v]) end).
Definition demo_new (an : analyzer_arg) : outcome (option dyn_index) :=
  dyn_new (fun x _ => x) (fun _ _ _ => 1%N) (VFloat (f64_of_N 32)) (VBool true) (VInt 1) (VInt 1) VNone an
    (VBool false) VNone (VStr [115; 101; 116]%N).
Definition demo_index (an : dyn_analyzer) : dyn_index :=
  DynIndex KHashSet MinHasher32 (py_make (fun _ _ _ => 1%N) KHashSet (f64_of_N 1) 1 1 (Some "word"%string) (Some false) None) an.
Notation demo_step := (dyn_step (fun t => t) (fun _ _ => None) (fun _ _ => None) (fun _ => 0%N) (fun _ => 0%N)).
Notation demo_run := (dyn_run (fun t => t) (fun _ _ => None) (fun _ _ => None) (fun _ => 0%N) (fun _ => 0%N)).
Definition demo_size (m : dyn_index) : nat := py_size (d_container m) (d_native m).

(** hash_size=32.0 and jaccard_threshold=True are accepted; a list as range, a negative number of
    bands and lowercase=1 are not. True is the id 1. A call whose last id is too large stores
    nothing. *)
Example C92_example :
  demo_new (AObject VNone) = Ret (Some (demo_index DNamed)) /\
  dyn_new (fun x _ => x) (fun _ _ _ => 1%N) (VInt 32) (VInt 1) (VInt 1) (VInt 1) VNone (AObject VNone)
    (VBool false) (VList [VInt 1; VInt 1]) (VStr [115; 101; 116]%N) = Raise ETypeError /\
  dyn_new (fun x _ => x) (fun _ _ _ => 1%N) (VInt 32) (VInt 1) (VInt (-1)) (VInt 1) VNone (AObject VNone)
    (VBool false) VNone (VStr [115; 101; 116]%N) = Raise EOverflowError /\
  dyn_new (fun x _ => x) (fun _ _ _ => 1%N) (VInt 32) (VInt 1) (VInt 1) (VInt 1) VNone (AObject VNone)
    (VInt 1) VNone (VStr [115; 101; 116]%N) = Raise ETypeError /\
  accepted DNamed (DInsertDocument (VBool true) doc) (InsertDocument 1 [97; 98]%N) /\
  demo_size (demo_run (demo_index DNamed) [DInsertDocument (VBool true) doc]) = 1%nat /\
  demo_size (demo_run (demo_index DNamed) [DInsertDocument (VBool true) doc; DRemove (VInt 1)]) = 0%nat /\
  (demo_step (demo_index demo_analyzer) (DInsertDocument VNone (VStr []))).2 = Some (EUser 0).
Proof.
  split; [vm_compute; reflexivity|]. split; [vm_compute; reflexivity|]. split; [vm_compute; reflexivity|].
  split; [vm_compute; reflexivity|]. split.
  { constructor; [split; [constructor|lia]|]. split; [done|]. repeat constructor; unfold plain; lia. }
  split; [vm_compute; reflexivity|]. split; [vm_compute; reflexivity|]. vm_compute; reflexivity.
Qed.

(** Bulk insertion is not insertion one by one (C52) when an id is too large: it stores nothing. *)
Theorem C92_one_by_one_refuted : exists (m : dyn_index) (ids docs : list pyval),
  length ids = length docs /\
  demo_size (demo_run m [DParBulkInsertDocs [] [] (VList ids) (VList docs)]) <>
  demo_size (demo_run m (zip_with DInsertDocument ids docs)).
Proof.
  exists (demo_index DNamed), [VInt 1; VInt (2 ^ 63)], [doc; doc]. split; [done|].
  assert (E1 : demo_size (demo_run (demo_index DNamed)
    [DParBulkInsertDocs [] [] (VList [VInt 1; VInt (2 ^ 63)]) (VList [doc; doc])]) = 0%nat) by (vm_compute; reflexivity).
  assert (E2 : demo_size (demo_run (demo_index DNamed)
    (zip_with DInsertDocument [VInt 1; VInt (2 ^ 63)] [doc; doc])) = 1%nat) by (vm_compute; reflexivity).
  rewrite E1, E2. exact (O_S 0).
Qed.

(** A callable analyzer accepts documents that a named one rejects: a str is taken for the list of
    its characters, and a generator will do. *)
Theorem C92_same_documents_refuted : exists (docs gen : pyval),
  accepted demo_analyzer (DParBulkInsertDocs [] [] (VList [VInt 1; VInt 2]) docs)
    (BulkInsertTokens [1; 2]%Z [[[97%N]]; [[98%N]]]) /\
  rejected DNamed (DParBulkInsertDocs [] [] (VList [VInt 1; VInt 2]) docs) ETypeError /\
  accepted demo_analyzer (DParBulkInsertDocs [] [] (VList [VInt 1]) gen) (BulkInsertTokens [1]%Z [[[97; 98]%N]]) /\
  rejected DNamed (DParBulkInsertDocs [] [] (VList [VInt 1]) gen) ETypeError.
Proof.
  exists doc, (VIter [doc]). rewrite <- !dyn_call_ret, <- !dyn_call_raise. repeat split; vm_compute; reflexivity.
Qed.

Print Assumptions C92_accepted.
Print Assumptions C92_rejected.
Print Assumptions C92_unchanged.
Print Assumptions C92_typed.
Print Assumptions C92_history.
Print Assumptions C92_named.
Print Assumptions C92_native.
Print Assumptions C92_query.
Print Assumptions C92_bulk_query.
Print Assumptions C92_bad_query.
Print Assumptions C92_bad_bulk_query.
Print Assumptions C92_new.
Print Assumptions C92_new_rejected.
Print Assumptions C92_new_class.
Print Assumptions C92_example.
Print Assumptions C92_one_by_one_refuted.
Print Assumptions C92_same_documents_refuted.
