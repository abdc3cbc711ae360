(** Property theorems C94: calls of the Python class SimHashStringIndex with arbitrary objects. *)
From stdpp Require Import base list gmap strings.
From Coq Require Import NArith ZArith SpecFloat.
From Verif Require Import Base Float StringIndex PyTokenizer PyMinHash PySimHash PyArgs SpecPyArgs
  PySimArgs SpecPySimArgs PySimArgsFacts PyArgsFacts PropsPy.

(** Which insertions reach the native class, with what, and which exception the others raise. *)
Theorem C94_accepted (an : dyn_analyzer) (id doc : pyval) (c : py_sop) :
  sdyn_call an id doc = Ret c <-> saccepted an id doc c.
Proof. exact (sdyn_call_ret an id doc c). Qed.
Theorem C94_rejected (an : dyn_analyzer) (id doc : pyval) (e : exn) :
  sdyn_call an id doc = Raise e <-> srejected an id doc e.
Proof. exact (sdyn_call_raise an id doc e). Qed.

Section Calls.
Context (lower : text -> text)
        (shingles_str : list N -> nat -> option (list (list N)))
        (shingles_words : list (list N) -> nat -> option (list (list (list N)))).
Context (W : nat) (hash : token -> N).

(** A rejected insertion changes nothing, and so does whatever raises no PanicException. *)
Theorem C94_unchanged (m : sdyn_index) (id doc : pyval) (e : exn) :
  let r := sdyn_insert lower shingles_str shingles_words W hash m id doc in
  (srejected (sd_analyzer m) id doc e -> r = (m, Some e)) /\ (r.2 = Some e -> e <> EPanic -> r.1 = m).
Proof. exact (sinsert_unchanged lower shingles_str shingles_words W hash m id doc e). Qed.

(** The object is what the accepted calls made of it. *)
Theorem C94_native (m : sdyn_index) (l : list (pyval * pyval)) : exists cs, scalls (sd_analyzer m) l cs /\
  sdyn_run lower shingles_str shingles_words W hash m l =
  SDynIndex (ps_run lower shingles_str shingles_words W hash (sd_native m) cs) (sd_analyzer m).
Proof. exact (srun_calls lower shingles_str shingles_words W hash l m). Qed.

Context (order : gset Z -> list Z) (sort : list (Z * nat) -> list (Z * nat)) (s1 s2 : list nat).
Notation dquery := (sdyn_query lower shingles_str shingles_words W hash order sort s1 s2).
Notation dbulk := (sdyn_par_bulk_query lower shingles_str shingles_words W hash order sort s1 s2).

(** Queries without distances, named analyzer. *)
Theorem C94_query (n : py_sindex) (v : pyval) :
  (forall d, doc_is v d -> dquery (SDynIndex n DNamed) v false =
     ends VIds (ps_query lower shingles_str shingles_words W hash order n d)) /\
  (forall e, doc_bad v e -> dquery (SDynIndex n DNamed) v false = Raise e) /\
  (forall ds, seq_is doc_is v ds -> dbulk (SDynIndex n DNamed) v false =
     ends VIdLists (ps_par_bulk_query lower shingles_str shingles_words W hash order s1 s2 n ds)) /\
  (forall e, seq_bad doc_is doc_bad v e -> dbulk (SDynIndex n DNamed) v false = Raise e).
Proof.
  rewrite named_query, named_bulk. split; [|split; [|split]].
  - intros d H. apply str_decides in H. by rewrite H.
  - intros e H. apply str_decides in H. by rewrite H.
  - intros ds H. apply (vec_decides _ _ _ str_decides) in H. by rewrite H.
  - intros e H. apply (vec_decides _ _ _ str_decides) in H. by rewrite H.
Qed.

(** ... and callable analyzer. *)
Theorem C94_callable_query (n : py_sindex) (f : pyval -> PyArgs.outcome pyval) (v t : pyval) :
  (forall ts, returns f v t -> seq_is doc_is t ts -> dquery (SDynIndex n (DCallable f)) v false =
     ends VIds (ps_query_tokens W hash order n ts)) /\
  (forall e, returns f v t -> seq_bad doc_is doc_bad t e -> dquery (SDynIndex n (DCallable f)) v false = Raise e) /\
  (forall e, throws f v e -> dquery (SDynIndex n (DCallable f)) v false = Raise e).
Proof.
  rewrite callable_query. unfold returns, throws. split; [|split].
  - intros ts H1 H2. rewrite H1. cbn [mbind outcome_bind]. apply (vec_decides _ _ _ str_decides) in H2. by rewrite H2.
  - intros e H1 H2. rewrite H1. cbn [mbind outcome_bind]. apply (vec_decides _ _ _ str_decides) in H2. by rewrite H2.
  - intros e H. by rewrite H.
Qed.

(** With [return_hamming_distance] the name of the native method is wrong: AttributeError for every
    object, and the callable is not run. *)
Theorem C94_distance (m : sdyn_index) (v : pyval) :
  dquery m v true = Raise (EAttributeError (match sd_analyzer m with
                                            | DNamed => "query_return_similarity"
                                            | DCallable _ => "query_tokens_return_similarity" end)) /\
  (sd_analyzer m = DNamed -> dbulk m v true = Raise (EAttributeError "par_bulk_query_tokens_return_distance")).
Proof. destruct m as [n [|f]]; split; done. Qed.

(** Bulk queries with a callable never return; it is run on all the documents first. *)
Theorem C94_callable_bulk (n : py_sindex) (f : pyval -> PyArgs.outcome pyval) (v : pyval) (b : bool) :
  ((~ exists vs, iterable v vs) -> dbulk (SDynIndex n (DCallable f)) v b = Raise ETypeError) /\
  (forall vs e, iterable v vs -> first_bad (returns f) (throws f) vs e ->
     dbulk (SDynIndex n (DCallable f)) v b = Raise e) /\
  (forall vs ts, iterable v vs -> Forall2 (returns f) vs ts -> dbulk (SDynIndex n (DCallable f)) v b =
     Raise (EAttributeError (if b then "par_bulk_query_tokens_return_distance" else "par_bulk_query_tokens"))).
Proof.
  rewrite callable_bulk. split; [|split].
  - intros H. assert (E : py_iter v = Raise ETypeError) by (by apply iter_raise). by rewrite E.
  - intros vs e H1 H2. apply iter_ret in H1. rewrite H1. cbn [mbind outcome_bind].
    apply (mapM_raise _ _ _ _ _ (call_decides f)) in H2. by rewrite H2.
  - intros vs ts H1 H2. apply iter_ret in H1. rewrite H1. cbn [mbind outcome_bind].
    apply (mapM_ret _ _ _ _ _ (call_decides f)) in H2. by rewrite H2.
Qed.

(** The methods of the native object that no call of the class reaches, called on the object itself. *)
Notation native n name v := (native_query lower shingles_str shingles_words W hash order sort s1 s2 n name (Ret v)).
Theorem C94_direct (n : py_sindex) (v : pyval) :
  (forall d, doc_is v d -> native n "query_return_distance" v =
     ends VPairs (ps_query_return_distance lower shingles_str shingles_words W hash order sort n d)) /\
  (forall ts, seq_is doc_is v ts -> native n "query_tokens_return_distance" v =
     ends VPairs (ps_query_tokens_return_distance W hash order sort n ts)) /\
  (forall ds, seq_is doc_is v ds -> native n "par_bulk_query_return_distance" v =
     ends VPairLists (mapM (ps_query_return_distance lower shingles_str shingles_words W hash order sort n) ds)) /\
  (forall tss, seq_is (seq_is doc_is) v tss -> native n "par_bulk_query_tokens_return_similarity" v =
     ends VPairLists (mapM (ps_query_tokens_return_distance W hash order sort n) tss)).
Proof.
  split; [|split; [|split]].
  - intros d H. apply str_decides in H. unfold native_query. cbn [String.eqb Ascii.eqb Bool.eqb mbind outcome_bind].
    rewrite H. cbn [mbind outcome_bind]. by destruct ps_query_return_distance.
  - intros ts H. apply (vec_decides _ _ _ str_decides) in H. unfold native_query.
    cbn [String.eqb Ascii.eqb Bool.eqb mbind outcome_bind].
    rewrite H. cbn [mbind outcome_bind]. by destruct ps_query_tokens_return_distance.
  - intros ds H. apply (vec_decides _ _ _ str_decides) in H. unfold native_query.
    cbn [String.eqb Ascii.eqb Bool.eqb mbind outcome_bind]. rewrite H. cbn [mbind outcome_bind].
    destruct (C58_bulk lower shingles_str shingles_words W hash order sort n s1 s2 ds []) as (_ & -> & _). by destruct mapM.
  - intros tss H. apply (vec_decides _ _ _ (vec_decides _ _ _ str_decides)) in H. unfold native_query.
    cbn [String.eqb Ascii.eqb Bool.eqb mbind outcome_bind]. rewrite H. cbn [mbind outcome_bind].
    destruct (C58_bulk lower shingles_str shingles_words W hash order sort n s1 s2 [] tss) as (_ & _ & ->). by destruct mapM.
Qed.
Theorem C94_direct_bad (n : py_sindex) (v : pyval) (e : exn) :
  (doc_bad v e -> native n "query_return_distance" v = Raise e) /\
  (seq_bad doc_is doc_bad v e -> native n "query_tokens_return_distance" v = Raise e /\
     native n "par_bulk_query_return_distance" v = Raise e) /\
  (seq_bad (seq_is doc_is) (seq_bad doc_is doc_bad) v e ->
     native n "par_bulk_query_tokens_return_similarity" v = Raise e).
Proof.
  split; [|split].
  - intros H. apply str_decides in H. unfold native_query. cbn [String.eqb Ascii.eqb Bool.eqb mbind outcome_bind].
    by rewrite H.
  - intros H. apply (vec_decides _ _ _ str_decides) in H. unfold native_query.
    cbn [String.eqb Ascii.eqb Bool.eqb mbind outcome_bind]. by rewrite H.
  - intros H. apply (vec_decides _ _ _ (vec_decides _ _ _ str_decides)) in H. unfold native_query.
    cbn [String.eqb Ascii.eqb Bool.eqb mbind outcome_bind]. by rewrite H.
Qed.

(** Objects of the declared types: the calls of C54 and C58. *)
Theorem C94_typed (n : py_sindex) (an : analyzer) (an' : dyn_analyzer) (b : bool) : agrees an an' ->
  (forall id doc i d, id_is id i -> doc_is doc d -> saccepted an' id doc (sclass_insert an i d)) /\
  (forall v d, doc_is v d ->
     same_outcome (sclass_query lower shingles_str shingles_words W hash order sort s1 s2 n an d b)
                  (dquery (SDynIndex n an') v b)) /\
  (forall v ds, seq_is doc_is v ds ->
     same_outcome (sclass_par_bulk_query lower shingles_str shingles_words W hash order sort s1 s2 n an ds b)
                  (dbulk (SDynIndex n an') v b)).
Proof.
  intros Ha. split; [|split].
  - intros id doc i d. by apply sinsert_same.
  - intros v d. by apply query_same.
  - intros v ds. by apply bulk_same.
Qed.
End Calls.

(** The constructor: exactly which arguments make an index, and which exception others raise. *)
Section Constructor.
Context (hashable : pyval -> bool) (Hstr : forall cs, hashable (VStr cs) = true).
Context (hash_size num_blocks hamming_distance : pyval) (an : analyzer_arg) (lowercase range : pyval).

Theorem C94_new (W : nat) (m : py_sindex) (an' : dyn_analyzer) :
  sdyn_new hashable hash_size num_blocks hamming_distance an lowercase range = Ret (W, SDynIndex m an') <->
  smakes hash_size num_blocks hamming_distance an lowercase range W m an'.
Proof. exact (snew_ret hashable Hstr _ _ _ _ _ _ W m an'). Qed.

Theorem C94_new_fails (e : exn) :
  sdyn_new hashable hash_size num_blocks hamming_distance an lowercase range = Raise e <->
  sfails hashable hash_size num_blocks hamming_distance an lowercase range e.
Proof. exact (snew_raise hashable Hstr _ _ _ _ _ _ e). Qed.

(** Integers, names or callables, and the declared options: the constructor of C54. *)
Theorem C94_new_class (z nb hd : Z) (a : analyzer) (lc : option bool) (r : option (nat * nat)) :
  (nb < 2 ^ 64)%Z -> argument_is a an -> opt_is bool_is lowercase lc -> opt_is pair_is range r ->
  match sclass_new z nb hd a lc r with
  | SMade W m => exists an', agrees a an' /\
      sdyn_new hashable (VInt z) (VInt nb) (VInt hd) an lowercase range = Ret (W, SDynIndex m an')
  | BadHashSize | BadNumBlocks | BadDistance | BadAnalyzer =>
      sdyn_new hashable (VInt z) (VInt nb) (VInt hd) an lowercase range = Raise EValueError
  | OverflowError => sdyn_new hashable (VInt z) (VInt nb) (VInt hd) an lowercase range = Raise EOverflowError
  | SPanic => sdyn_new hashable (VInt z) (VInt nb) (VInt hd) an lowercase range = Raise EPanic
  end.
Proof. exact (snew_same hashable z nb hd a an lowercase range lc r Hstr). Qed.
End Constructor.

(** ** Cases *)
Definition demo_hashable (v : pyval) : bool := match v with VList _ => false | _ => true end.
Notation demo h n d a l r := (sdyn_new demo_hashable h n d a l r).
Notation word := (AObject (VStr [119; 111; 114; 100]%N)).
Definition demo_native : py_sindex := PySIndex (SimHashIndex.SIndex 6 5 [] ∅ 0) (tokenizer_new "word" None) false.

(** hash_size=64.0 and hamming_distance=True with two blocks are accepted, although "between 3 and
    32" is asked for. num_blocks=2.5 is compared exactly: with distance 3 it is a ValueError, with
    distance 2 a TypeError. The unhashable analyzer is a TypeError, None a ValueError. *)
Example C94_example :
  (exists m, demo (VFloat (f64_of_N 64)) (VInt 2) (VBool true) word VNone VNone = Ret (64, SDynIndex m DNamed)) /\
  demo (VInt 64) (VFloat (S754_finite false 5 (-1))) (VInt 3) word VNone VNone = Raise EValueError /\
  demo (VInt 64) (VFloat (S754_finite false 5 (-1))) (VInt 2) word VNone VNone = Raise ETypeError /\
  demo (VInt 64) VNone (VInt 3) word VNone VNone = Raise ETypeError /\
  demo (VInt 64) (VInt 6) (VInt 5) (AObject (VList [])) VNone VNone = Raise ETypeError /\
  demo (VInt 64) (VInt 6) (VInt 5) (AObject VNone) VNone VNone = Raise EValueError /\
  demo (VInt 64) (VInt 6) (VInt (-1)) word VNone VNone = Raise EOverflowError /\
  demo (VInt 32) (VInt 6) (VInt 5) word VNone VNone = Raise EValueError /\
  sdyn_query (fun t => t) (fun _ _ => None) (fun _ _ => None) 64 (fun _ => 0%N) (fun _ => []) (fun l => l) [] []
    (SDynIndex demo_native DNamed) VNone true = Raise (EAttributeError "query_return_similarity") /\
  saccepted DNamed (VBool true) (VStr [97; 98]%N) (SInsertDocument 1 [97; 98]%N) /\
  srejected DNamed (VStr []) (VInt 1) ETypeError /\
  demo (VInt 64) (VInt 65) (VInt 1) (AObject (VStr (literal "char"))) VNone VNone = Raise EPanic.
Proof.
  split; [eexists; vm_compute; reflexivity|]. do 8 (split; [vm_compute; reflexivity|]).
  split; [apply sdyn_call_ret; vm_compute; reflexivity|].
  split; [apply sdyn_call_raise; vm_compute; reflexivity|].
  pose proof (C94_new_class demo_hashable (fun _ => eq_refl) (AObject (VStr (literal "char"))) VNone VNone
    64 65 1 (Named "char") None None eq_refl eq_refl (opt_none _) (opt_none _)) as H.
  destruct C54_example as (_ & _ & E & _). rewrite E in H. exact H.
Qed.

(** Called on the native object the distances are there: an empty index answers a list of two
    documents with two empty lists, and a list of strings where lists of strings are asked for is a
    TypeError. *)
Example C94_direct_example :
  let native := native_query (fun t => t) (fun l _ => Some [l]) (fun _ _ => None) 64 (fun _ => 0%N) (fun _ => [])
    (fun l => l) [] [] demo_native in
  native "par_bulk_query_return_distance" (Ret (VList [VStr [97%N]; VStr [98%N]])) = Ret (VPairLists [[]; []]) /\
  native "par_bulk_query_tokens_return_similarity" (Ret (VList [VTuple []; VList [VStr [97%N]]])) = Ret (VPairLists [[]; []]) /\
  native "par_bulk_query_tokens_return_similarity" (Ret (VList [VStr [97%N]])) = Raise ETypeError /\
  native "par_bulk_query_tokens_return_distance" (Ret (VList [])) = Raise (EAttributeError "par_bulk_query_tokens_return_distance").
Proof. vm_compute. split_and!; reflexivity. Qed.

(** The class is documented to take a callable analyzer; with one no bulk query returns, however
    well the callable behaves. *)
Theorem C94_callable_bulk_refuted : exists (f : pyval -> PyArgs.outcome pyval), (forall v, f v = Ret (VList [])) /\
  forall lower ss sw W hash order sort s1 s2 n v b, exists e,
  sdyn_par_bulk_query lower ss sw W hash order sort s1 s2 (SDynIndex n (DCallable f)) v b = Raise e.
Proof.
  exists (fun _ => Ret (VList [])). split; [done|]. intros. rewrite callable_bulk.
  destruct (py_iter v) as [ds|e]; [|by exists e]. cbn [mbind outcome_bind].
  destruct (mapM _ ds) as [ts|e]; [|by exists e]. cbn [mbind outcome_bind]. by eexists.
Qed.

Print Assumptions C94_accepted.
Print Assumptions C94_rejected.
Print Assumptions C94_unchanged.
Print Assumptions C94_native.
Print Assumptions C94_query.
Print Assumptions C94_callable_query.
Print Assumptions C94_distance.
Print Assumptions C94_callable_bulk.
Print Assumptions C94_direct.
Print Assumptions C94_direct_bad.
Print Assumptions C94_typed.
Print Assumptions C94_new.
Print Assumptions C94_new_fails.
Print Assumptions C94_new_class.
Print Assumptions C94_callable_bulk_refuted.
