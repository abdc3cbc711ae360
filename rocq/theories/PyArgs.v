(** Model of the calls of py-gaoya/gaoya/minhash.py with arbitrary Python objects as arguments.
    Definitions only.

    PyMinHash.v starts from arguments that have the types of the signatures in
    py-gaoya/src/min_hash.rs. Here the arguments are objects, and what pyo3 0.18.3 (Cargo.toml:24)
    makes of them is part of the model: an argument is converted before the method starts, from
    left to right, and the first that cannot be converted raises. A callable analyzer is a
    function of its argument that returns or raises; iterating over an object does not raise
    later than at its start; [return_similarity] is a bool. *)
From stdpp Require Import base list gmap strings.
From Coq Require Import NArith ZArith Ascii.
From Verif Require Import Base Float Container MinHasher StringIndex PyTokenizer PyMinHash.

(** Objects, as far as conversion can tell them apart. [VInt]: also anything with [__index__].
    [VStr]: the code points, surrogates included. [VList]: any sequence but str and tuple.
    [VIter]: can be iterated but is no sequence, as a set or a generator. *)
Inductive pyval :=
| VNone
| VBool (b : bool)
| VInt (z : Z)
| VFloat (x : f64)
| VStr (cs : list N)
| VList (l : list pyval)
| VTuple (l : list pyval)
| VIter (l : list pyval)
| VOther.

Inductive exn :=
| ETypeError | EValueError | EOverflowError | EUnicodeEncodeError | EPanic | EUser (n : nat)
| EAttributeError (name : string).

Inductive outcome (A : Type) := Ret (a : A) | Raise (e : exn).
Arguments Ret {A}.
Arguments Raise {A}.
Global Instance outcome_ret : MRet outcome := @Ret.
Global Instance outcome_bind : MBind outcome :=
  fun A B f x => match x with Ret a => f a | Raise e => Raise e end.

(** ** pyo3: the types of the parameters *)

(** [i64], [usize]. *)
Definition in_range (lo hi z : Z) : outcome Z :=
  if ((lo <=? z) && (z <? hi))%Z then Ret z else Raise EOverflowError.
Definition to_int (lo hi : Z) (v : pyval) : outcome Z :=
  match v with
  | VInt z => in_range lo hi z
  | VBool b => in_range lo hi (if b then 1 else 0)%Z
  | _ => Raise ETypeError
  end.
Definition to_i64 : pyval -> outcome Z := to_int (- 2 ^ 63) (2 ^ 63).
Definition to_usize (v : pyval) : outcome nat := z ← to_int 0 (2 ^ 64) v; Ret (Z.to_nat z).

(** [&str]: there must be an UTF-8 form. *)
Definition is_surrogate (c : N) : bool := ((55296 <=? c) && (c <? 57344))%N.
Definition to_str (v : pyval) : outcome text :=
  match v with
  | VStr cs => if existsb is_surrogate cs then Raise EUnicodeEncodeError else Ret cs
  | _ => Raise ETypeError
  end.

(** [Vec<T>]: a str is rejected. *)
Definition to_vec {A} (conv : pyval -> outcome A) (v : pyval) : outcome (list A) :=
  match v with
  | VList l | VTuple l => mapM conv l
  | _ => Raise ETypeError
  end.

(** [Option<T>], [bool], [(usize, usize)], and [f64] for the numbers left by minhash.py:96. *)
Definition to_option {A} (conv : pyval -> outcome A) (v : pyval) : outcome (option A) :=
  match v with VNone => Ret None | _ => a ← conv v; Ret (Some a) end.
Definition to_bool (v : pyval) : outcome bool :=
  match v with VBool b => Ret b | _ => Raise ETypeError end.
Definition to_pair (v : pyval) : outcome (nat * nat) :=
  match v with
  | VTuple [a; b] => x ← to_usize a; y ← to_usize b; Ret (x, y)
  | VTuple _ => Raise EValueError
  | _ => Raise ETypeError
  end.

(** ** minhash.py *)

(** [for x in v]: a str gives its characters. *)
Definition py_iter (v : pyval) : outcome (list pyval) :=
  match v with
  | VList l | VTuple l | VIter l => Ret l
  | VStr cs => Ret ((fun c => VStr [c]) <$> cs)
  | _ => Raise ETypeError
  end.

Inductive dyn_analyzer := DNamed | DCallable (f : pyval -> outcome pyval).

(** The object; [class_index] of PyMinHash.v without the restriction on callables. *)
Record dyn_index := DynIndex {
  d_container : container_kind;
  d_hash : hasher_kind;
  d_native : py_index d_container;
  d_analyzer : dyn_analyzer;
}.

Inductive dyn_op :=
| DInsertDocument (id doc : pyval)
| DParBulkInsertDocs (sched1 sched2 : list nat) (ids docs : pyval)
| DRemove (id : pyval).

(** minhash.py:130-145 [insert_document], 207-224 [par_bulk_insert_docs], 226-235 [remove]: the
    native call after conversion. Arguments of a call are evaluated before it. *)
Definition dyn_call (an : dyn_analyzer) (o : dyn_op) : outcome py_op :=
  match o, an with
  | DInsertDocument id doc, DCallable f =>
      t ← f doc; i ← to_i64 id; ts ← to_vec to_str t; Ret (InsertTokens i ts)
  | DInsertDocument id doc, DNamed => i ← to_i64 id; d ← to_str doc; Ret (InsertDocument i d)
  | DParBulkInsertDocs _ _ ids docs, DCallable f =>
      ds ← py_iter docs; ts ← mapM f ds;
      is ← to_vec to_i64 ids; tss ← to_vec (to_vec to_str) (VList ts); Ret (BulkInsertTokens is tss)
  | DParBulkInsertDocs s1 s2 ids docs, DNamed =>
      is ← to_vec to_i64 ids; ds ← to_vec to_str docs; Ret (ParBulkInsertDocs s1 s2 is ds)
  | DRemove id, _ => i ← to_i64 id; Ret (PyRemove i)
  end.

(** A panic reaches Python as PanicException. *)
Definition of_res {A} (r : res A) : outcome A := match r with Some a => Ret a | None => Raise EPanic end.

Section Dyn.
Context (lower : text -> text)
        (shingles_str : list N -> nat -> option (list (list N)))
        (shingles_words : list (list N) -> nat -> option (list (list (list N)))).
Context (hash : token -> N) (bh : list N -> N).

(** One call, with the exception it raises. *)
Definition dyn_step (m : dyn_index) (o : dyn_op) : dyn_index * option exn :=
  match dyn_call (d_analyzer m) o with
  | Ret c =>
      let r := py_step lower shingles_str shingles_words hash bh (d_container m) (d_hash m) (d_native m) c in
      (DynIndex (d_container m) (d_hash m) r.1 (d_analyzer m), if r.2 then Some EPanic else None)
  | Raise e => (m, Some e)
  end.
Definition dyn_run (m : dyn_index) (ops : list dyn_op) : dyn_index :=
  fold_left (fun m o => (dyn_step m o).1) ops m.

Context (order : gset Z -> list Z) (sort : list (Z * f64) -> list (Z * f64)).

(** minhash.py:147-174 [query] without and with [return_similarity]. *)
Definition dyn_query (m : dyn_index) (doc : pyval) : outcome (list Z) :=
  match d_analyzer m with
  | DCallable f =>
      t ← f doc; ts ← to_vec to_str t;
      of_res (py_query_tokens hash bh (d_container m) (d_hash m) order (d_native m) ts)
  | DNamed =>
      d ← to_str doc;
      of_res (py_query lower shingles_str shingles_words hash bh (d_container m) (d_hash m) order (d_native m) d)
  end.
Definition dyn_query_return_similarity (m : dyn_index) (doc : pyval) : outcome (list (Z * f64)) :=
  match d_analyzer m with
  | DCallable f =>
      t ← f doc; ts ← to_vec to_str t;
      of_res (py_query_tokens_return_similarity hash bh (d_container m) (d_hash m) order sort (d_native m) ts)
  | DNamed =>
      d ← to_str doc;
      of_res (py_query_return_similarity lower shingles_str shingles_words hash bh (d_container m)
                (d_hash m) order sort (d_native m) d)
  end.

(** minhash.py:176-203 [par_bulk_query] without and with [return_similarity]. *)
Definition dyn_par_bulk_query (sched1 sched2 : list nat) (m : dyn_index) (docs : pyval)
  : outcome (list (list Z)) :=
  match d_analyzer m with
  | DCallable f =>
      ds ← py_iter docs; ts ← mapM f ds; tss ← to_vec (to_vec to_str) (VList ts);
      of_res (py_par_bulk_query_tokens hash bh (d_container m) (d_hash m) order sched1 sched2 (d_native m) tss)
  | DNamed =>
      ds ← to_vec to_str docs;
      of_res (py_par_bulk_query lower shingles_str shingles_words hash bh (d_container m) (d_hash m)
                order sched1 sched2 (d_native m) ds)
  end.
Definition dyn_par_bulk_query_return_similarity (sched1 sched2 : list nat) (m : dyn_index) (docs : pyval)
  : outcome (list (list (Z * f64))) :=
  match d_analyzer m with
  | DCallable f =>
      ds ← py_iter docs; ts ← mapM f ds; tss ← to_vec (to_vec to_str) (VList ts);
      of_res (py_par_bulk_query_tokens_return_similarity hash bh (d_container m) (d_hash m) order sort
                sched1 sched2 (d_native m) tss)
  | DNamed =>
      ds ← to_vec to_str docs;
      of_res (py_par_bulk_query_return_similarity lower shingles_str shingles_words hash bh
                (d_container m) (d_hash m) order sort sched1 sched2 (d_native m) ds)
  end.
End Dyn.

(** ** The constructor *)

(** The characters of an ASCII literal. *)
Definition literal (s : string) : list N := N_of_ascii <$> list_ascii_of_string s.

(** [v == z] for a small number [z]: an int, a bool or a float of that value. *)
Definition equals_int (v : pyval) (z : N) : bool :=
  match v with
  | VInt x => (x =? Z.of_N z)%Z
  | VBool b => ((if b then 1 else 0) =? z)%N
  | VFloat x => SFeqb x (f64_of_N z)
  | _ => false
  end.

(** minhash.py:94 [hash_size not in [8, 16, 32, 64]], with the look-up of line 127, which finds
    equal keys. *)
Definition dyn_hash_size (v : pyval) : outcome hasher_kind :=
  if equals_int v 8 then Ret MinHasher8
  else if equals_int v 16 then Ret MinHasher16
  else if equals_int v 32 then Ret MinHasher32
  else if equals_int v 64 then Ret MinHasher64V1
  else Raise EValueError.

(** minhash.py:96: the comparisons with 0.0 and 1.0; what passes is a float, an int 0 or 1, or a
    bool, which pyo3 converts. *)
Definition dyn_threshold (v : pyval) : outcome f64 :=
  match v with
  | VFloat x => if f64_lt x (f64_of_N 0) || f64_gt x f64_one then Raise EValueError else Ret x
  | VInt z => if ((z <? 0) || (1 <? z))%Z then Raise EValueError else Ret (f64_of_N (Z.to_N z))
  | VBool b => Ret (f64_of_N (if b then 1 else 0))
  | _ => Raise ETypeError
  end.

(** minhash.py:98 and the look-up of line 127. *)
Definition dyn_container (v : pyval) : outcome container_kind :=
  match v with
  | VStr cs =>
      if bool_decide (cs = literal "set") then Ret KHashSet
      else if bool_decide (cs = literal "vec") then Ret KVec
      else if bool_decide (cs = literal "smallvec") then Ret (KSmallVec 2)
      else Raise EValueError
  | _ => Raise EValueError
  end.

(** The analyzer argument: a callable, or an object handed on to pyo3. Of a name only its being
    char matters (lib.rs:31). *)
Inductive analyzer_arg := ACallable (f : pyval -> outcome pyval) | AObject (v : pyval).
Definition analyzer_name (cs : text) : string :=
  if bool_decide (cs = literal "char") then "char" else "word".

(** minhash.py:102 and [Option<&str>] of the native constructor. *)
Definition dyn_name (an : analyzer_arg) : outcome (option string) :=
  match an with
  | ACallable _ => Ret (Some "word"%string)
  | AObject v => n ← to_option to_str v; Ret (option_map analyzer_name n)
  end.

(** minhash.py:85-128 [__init__]; [None] if the computation of the parameters does not end. *)
Definition dyn_new (powf : f64 -> f64 -> f64) (draws : N -> nat -> nat -> N)
    (hash_size th num_bands band_size num_hashes : pyval) (an : analyzer_arg)
    (lowercase range id_container : pyval) : outcome (option dyn_index) :=
  hk ← dyn_hash_size hash_size;
  x ← dyn_threshold th;
  ck ← dyn_container id_container;
  nb ← to_option to_usize num_bands;
  bw ← to_option to_usize band_size;
  nh ← to_option to_usize num_hashes;
  name ← dyn_name an;
  lc ← to_option to_bool lowercase;
  r ← to_option to_pair range;
  match py_new powf draws ck x nb bw nh name lc r with
  | Made m => Ret (Some (DynIndex ck hk m (match an with ACallable f => DCallable f | AObject _ => DNamed end)))
  | ValueError => Raise EValueError
  | Diverges => Ret None
  end.
