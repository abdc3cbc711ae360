(** Model of py-gaoya/src/min_hash.rs and py-gaoya/gaoya/minhash.py. Definitions only.

    The three container types and four hash widths of the macro (min_hash.rs:18-253) are the
    arguments [ck] and [hk]. [th] is a Python float; ids are [i64], band counts are
    non-negative integers (pyo3 raises OverflowError for others before the code modelled here
    runs). [str]/[repr] are in Display.v. *)
From stdpp Require Import base list gmap strings.
From Coq Require Import NArith ZArith.
From Verif Require Import Base Par Float Container MinHashIndex MinHasher Params Text StringIndex
  PyTokenizer.

(** min_hash.rs:23-28: the fields of the class. *)
Record py_index (ck : container_kind) := PyIndex {
  py_inner : index (carrier (container ck Z)) Z N;
  py_hasher : hasher;
  py_tokenizer : tokenizer;
  py_lowercase : bool;
}.
Arguments PyIndex {ck}.
Arguments py_inner {ck}.
Arguments py_hasher {ck}.
Arguments py_tokenizer {ck}.
Arguments py_lowercase {ck}.

(** The outcome of a constructor. *)
Inductive made (A : Type) := Made (a : A) | ValueError | Diverges.
Arguments Made {A}.
Arguments ValueError {A}.
Arguments Diverges {A}.

(** The mutating methods of the class; schedules are those of the parallel hashing and of the
    parallel insertion. *)
Inductive py_op :=
| InsertDocument (id : Z) (doc : text)
| InsertTokens (id : Z) (tokens : list text)
| PyRemove (id : Z)
| ParBulkInsertDocs (sched1 sched2 : list nat) (ids : list Z) (docs : list text)
| BulkInsertTokens (ids : list Z) (tokens : list (list text))
| ParBulkInsertTokens (sched1 sched2 : list nat) (ids : list Z) (tokens : list (list text)).

Section PyMinHash.
Context (lower : text -> text)
        (shingles_str : list N -> nat -> option (list (list N)))
        (shingles_words : list (list N) -> nat -> option (list (list (list N)))).
Context (powf : f64 -> f64 -> f64).
Context (hash : token -> N) (draws : N -> nat -> nat -> N) (bh : list N -> N).
Context (ck : container_kind) (hk : hasher_kind).
Notation K := (container ck Z).
Notation doc_tokens := (doc_tokens lower shingles_str shingles_words).

(** min_hash.rs:51-58 and 60-67: the struct literals. *)
Definition py_make (th : f64) (nb bw : nat) (analyzer : option string) (lowercase : option bool)
    (range : option (nat * nat)) : py_index ck :=
  PyIndex (new_index K nb bw th) (new_with_hasher draws (nb * bw))
    (tokenizer_new (default "word"%string analyzer) range) (default false lowercase).

(** min_hash.rs:41-70 [new]. *)
Definition py_new (th : f64) (num_bands band_width num_hashes : option nat)
    (analyzer : option string) (lowercase : option bool) (range : option (nat * nat))
  : made (py_index ck) :=
  match num_bands, band_width with
  | Some nb, Some bw => Made (py_make th nb bw analyzer lowercase range)
  | _, _ =>
      match num_hashes with
      | Some n =>
          match calculate_minhash_params powf th n with
          | Some (nb, bw) => Made (py_make th nb bw analyzer lowercase range)
          | None => Diverges
          end
      | None => ValueError
      end
  end.

(** min_hash.rs:72-94 [tokenize_and_minhash], with the lower-casing of its callers. *)
Definition py_doc_signature (m : py_index ck) (doc : text) : res (list N) :=
  toks ← doc_tokens (py_tokenizer m) (py_lowercase m) doc;
  create_signature hk hash (py_hasher m) toks.

(** min_hash.rs:109, 144, 155, 160: signature of given tokens. *)
Definition py_tokens_signature (m : py_index ck) (tokens : list text) : res (list N) :=
  create_signature hk hash (py_hasher m) (given_tokens tokens).

(** Replacing the inner index; the flag tells whether the call panicked. *)
Definition with_inner (m : py_index ck) (r : index (carrier K) Z N * out N) : py_index ck * bool :=
  (PyIndex r.1 (py_hasher m) (py_tokenizer m) (py_lowercase m),
   match r.2 with OPanic => true | _ => false end).

(** The hash is computed first; if that panics nothing is stored. *)
Definition py_insert_sig (id : Z) (sig : res (list N)) (m : py_index ck) : py_index ck * bool :=
  match sig with
  | Some s => with_inner m (insert K bh id s (py_inner m))
  | None => (m, true)
  end.

(** min_hash.rs:96-105 [insert_document] and 107-110 [insert_tokens]. *)
Definition py_insert_document (id : Z) (doc : text) (m : py_index ck) : py_index ck * bool :=
  py_insert_sig id (py_doc_signature m doc) m.
Definition py_insert_tokens (id : Z) (tokens : list text) (m : py_index ck) : py_index ck * bool :=
  py_insert_sig id (py_tokens_signature m tokens) m.

(** min_hash.rs:112-114 [remove]. *)
Definition py_remove (id : Z) (m : py_index ck) : py_index ck * bool :=
  with_inner m (remove K bh id (py_inner m)).

(** A [for] loop over pairs; a panic ends it. *)
Fixpoint py_loop {A} (body : A -> py_index ck -> py_index ck * bool) (l : list A) (m : py_index ck)
  : py_index ck * bool :=
  match l with
  | [] => (m, false)
  | a :: l' => let r := body a m in if r.2 then r else py_loop body l' r.1
  end.

(** min_hash.rs:116-127 [bulk_hash_docs]. *)
Definition bulk_hash_docs (sched : list nat) (m : py_index ck) (docs : list text)
  : res (list (list N)) := par_map (py_doc_signature m) sched docs.

(** minhash/mod.rs:54-63 [bulk_create_signature] on given tokens. *)
Definition bulk_hash_tokens (sched : list nat) (m : py_index ck) (tokens : list (list text))
  : res (list (list N)) := bulk_create_signature hk hash sched (py_hasher m) (given_tokens <$> tokens).

(** Bulk insertion of computed signatures. *)
Definition py_insert_sigs (sched : list nat) (ids : list Z) (sigs : res (list (list N)))
    (m : py_index ck) : py_index ck * bool :=
  match sigs with
  | Some sigs => with_inner m (par_bulk_insert K bh sched ids sigs (py_inner m))
  | None => (m, true)
  end.

(** min_hash.rs:129-138 [par_bulk_insert_docs]. *)
Definition py_par_bulk_insert_docs (sched1 sched2 : list nat) (ids : list Z) (docs : list text)
    (m : py_index ck) : py_index ck * bool :=
  if (length ids <? 100)%nat then
    py_loop (fun p => py_insert_document p.1 p.2) (zip ids docs) m
  else py_insert_sigs sched2 ids (bulk_hash_docs sched1 m docs) m.

(** min_hash.rs:140-147 [bulk_insert_tokens]. *)
Definition py_bulk_insert_tokens (ids : list Z) (tokens : list (list text)) (m : py_index ck)
  : py_index ck * bool :=
  py_loop (fun p => py_insert_tokens p.1 p.2) (zip ids tokens) m.

(** min_hash.rs:149-152 [par_bulk_insert_tokens]. *)
Definition py_par_bulk_insert_tokens (sched1 sched2 : list nat) (ids : list Z)
    (tokens : list (list text)) (m : py_index ck) : py_index ck * bool :=
  py_insert_sigs sched2 ids (bulk_hash_tokens sched1 m tokens) m.

(** One call; the flag tells whether it raised PanicException. *)
Definition py_step (m : py_index ck) (o : py_op) : py_index ck * bool :=
  match o with
  | InsertDocument id doc => py_insert_document id doc m
  | InsertTokens id tokens => py_insert_tokens id tokens m
  | PyRemove id => py_remove id m
  | ParBulkInsertDocs sched1 sched2 ids docs => py_par_bulk_insert_docs sched1 sched2 ids docs m
  | BulkInsertTokens ids tokens => py_bulk_insert_tokens ids tokens m
  | ParBulkInsertTokens sched1 sched2 ids tokens => py_par_bulk_insert_tokens sched1 sched2 ids tokens m
  end.

(** A history of calls; the object survives a PanicException. *)
Definition py_run (m : py_index ck) (ops : list py_op) : py_index ck :=
  fold_left (fun m o => (py_step m o).1) ops m.

(** ** Queries. [order] is the iteration order of the answer set, [sort] the unstable sort. *)
Context (order : gset Z -> list Z) (sort : list (Z * f64) -> list (Z * f64)).

(** min_hash.rs:154-157 [query_tokens] and 164-175 [query]. *)
Definition py_query_sig (m : py_index ck) (sig : list N) : res (list Z) :=
  order <$> query_owned K bh (py_inner m) sig.
Definition py_query_tokens (m : py_index ck) (tokens : list text) : res (list Z) :=
  py_tokens_signature m tokens ≫= py_query_sig m.
Definition py_query (m : py_index ck) (doc : text) : res (list Z) :=
  py_doc_signature m doc ≫= py_query_sig m.

(** min_hash.rs:159-162 [query_tokens_return_similarity] and 177-185 [query_return_similarity]. *)
Definition py_query_tokens_return_similarity (m : py_index ck) (tokens : list text)
  : res (list (Z * f64)) :=
  py_tokens_signature m tokens ≫= query_owned_return_similarity K bh order sort (py_inner m).
Definition py_query_return_similarity (m : py_index ck) (doc : text) : res (list (Z * f64)) :=
  py_doc_signature m doc ≫= query_owned_return_similarity K bh order sort (py_inner m).

(** min_hash.rs:187-193 [par_bulk_query] and 201-207 [par_bulk_query_tokens]. *)
Definition py_par_bulk_query (sched1 sched2 : list nat) (m : py_index ck) (docs : list text)
  : res (list (list Z)) :=
  sigs ← bulk_hash_docs sched1 m docs;
  map order <$> par_bulk_query K bh sched2 (py_inner m) sigs.
Definition py_par_bulk_query_tokens (sched1 sched2 : list nat) (m : py_index ck)
    (tokens : list (list text)) : res (list (list Z)) :=
  sigs ← bulk_hash_tokens sched1 m tokens;
  map order <$> par_bulk_query K bh sched2 (py_inner m) sigs.

(** min_hash.rs:195-198 [par_bulk_query_return_similarity] and 209-212
    [par_bulk_query_tokens_return_similarity]. *)
Definition py_par_bulk_query_return_similarity (sched1 sched2 : list nat) (m : py_index ck)
    (docs : list text) : res (list (list (Z * f64))) :=
  sigs ← bulk_hash_docs sched1 m docs;
  par_bulk_query_return_similarity K bh order sort sched2 (py_inner m) sigs.
Definition py_par_bulk_query_tokens_return_similarity (sched1 sched2 : list nat) (m : py_index ck)
    (tokens : list (list text)) : res (list (list (Z * f64))) :=
  sigs ← bulk_hash_tokens sched1 m tokens;
  par_bulk_query_return_similarity K bh order sort sched2 (py_inner m) sigs.

(** min_hash.rs:215-217 [size]. *)
Definition py_size (m : py_index ck) : nat := index_size K (py_inner m).
End PyMinHash.

(** ** minhash.py: the class MinHashStringIndex *)

(** The [analyzer] argument: a name or a callable. *)
Inductive analyzer := Named (name : string) | Callable (f : text -> list text).

(** minhash.py:104-127: the table of constructors, as the widths and containers it names
    (min_hash.rs:236-251). *)
Definition choose_hash (hash_size : Z) : option hasher_kind :=
  if (hash_size =? 64)%Z then Some MinHasher64V1
  else if (hash_size =? 32)%Z then Some MinHasher32
  else if (hash_size =? 16)%Z then Some MinHasher16
  else if (hash_size =? 8)%Z then Some MinHasher8
  else None.
Definition choose_container (id_container : string) : option container_kind :=
  if String.eqb id_container "set" then Some KHashSet
  else if String.eqb id_container "vec" then Some KVec
  else if String.eqb id_container "smallvec" then Some (KSmallVec 2)
  else None.

(** The object: which native class, the native object, and [self.analyzer]. *)
Record class_index := ClassIndex {
  c_container : container_kind;
  c_hash : hasher_kind;
  c_native : py_index c_container;
  c_analyzer : analyzer;
}.

(** minhash.py:85-128 [__init__]. *)
Definition class_new (powf : f64 -> f64 -> f64) (draws : N -> nat -> nat -> N)
    (hash_size : Z) (th : f64) (num_bands band_size num_hashes : option nat) (an : analyzer)
    (lowercase : option bool) (range : option (nat * nat)) (id_container : string)
  : made class_index :=
  if negb (bool_decide (hash_size ∈ [8; 16; 32; 64]%Z)) then ValueError
  else if f64_lt th (f64_of_N 0) || f64_gt th f64_one then ValueError
  else if negb (bool_decide (id_container ∈ ["set"; "vec"; "smallvec"]%string)) then ValueError
  else
    let name := match an with Callable _ => "word"%string | Named s => s end in
    match choose_hash hash_size, choose_container id_container with
    | Some hk, Some ck =>
        match py_new powf draws ck th num_bands band_size num_hashes (Some name) lowercase range with
        | Made m => Made (ClassIndex ck hk m an)
        | ValueError => ValueError
        | Diverges => Diverges
        end
    | _, _ => ValueError
    end.

(** minhash.py:85-93: the call with only [num_hashes] given uses the defaults 20 and 5. *)
Definition class_new_defaults (powf : f64 -> f64 -> f64) (draws : N -> nat -> nat -> N)
    (num_hashes : option nat) : made class_index :=
  class_new powf draws 32 (f64_div (f64_of_N 3) (f64_of_N 4)) (Some 20) (Some 5) num_hashes
    (Named "word") (Some false) None "set".

(** The mutating methods of the class. *)
Inductive class_op :=
| CInsertDocument (id : Z) (doc : text)
| CParBulkInsertDocs (sched1 sched2 : list nat) (ids : list Z) (docs : list text)
| CRemove (id : Z).

(** minhash.py:130-145 [insert_document], 207-224 [par_bulk_insert_docs], 226-235 [remove]: the
    native call made. *)
Definition class_call (an : analyzer) (o : class_op) : py_op :=
  match o, an with
  | CInsertDocument id doc, Callable f => InsertTokens id (f doc)
  | CInsertDocument id doc, Named _ => InsertDocument id doc
  | CParBulkInsertDocs _ _ ids docs, Callable f => BulkInsertTokens ids (f <$> docs)
  | CParBulkInsertDocs s1 s2 ids docs, Named _ => ParBulkInsertDocs s1 s2 ids docs
  | CRemove id, _ => PyRemove id
  end.

Section Class.
Context (lower : text -> text)
        (shingles_str : list N -> nat -> option (list (list N)))
        (shingles_words : list (list N) -> nat -> option (list (list (list N)))).
Context (hash : token -> N) (bh : list N -> N).

Definition class_step (m : class_index) (o : class_op) : class_index * bool :=
  let r := py_step lower shingles_str shingles_words hash bh (c_container m) (c_hash m) (c_native m)
             (class_call (c_analyzer m) o) in
  (ClassIndex (c_container m) (c_hash m) r.1 (c_analyzer m), r.2).

Definition class_run (m : class_index) (ops : list class_op) : class_index :=
  fold_left (fun m o => (class_step m o).1) ops m.

Context (order : gset Z -> list Z) (sort : list (Z * f64) -> list (Z * f64)).

(** minhash.py:147-174 [query] without and with [return_similarity]. *)
Definition class_query (m : class_index) (doc : text) : res (list Z) :=
  match c_analyzer m with
  | Callable f => py_query_tokens hash bh (c_container m) (c_hash m) order (c_native m) (f doc)
  | Named _ => py_query lower shingles_str shingles_words hash bh (c_container m) (c_hash m) order
                 (c_native m) doc
  end.
Definition class_query_return_similarity (m : class_index) (doc : text) : res (list (Z * f64)) :=
  match c_analyzer m with
  | Callable f =>
      py_query_tokens_return_similarity hash bh (c_container m) (c_hash m) order sort (c_native m)
        (f doc)
  | Named _ =>
      py_query_return_similarity lower shingles_str shingles_words hash bh (c_container m)
        (c_hash m) order sort (c_native m) doc
  end.

(** minhash.py:176-203 [par_bulk_query] without and with [return_similarity]. *)
Definition class_par_bulk_query (sched1 sched2 : list nat) (m : class_index) (docs : list text)
  : res (list (list Z)) :=
  match c_analyzer m with
  | Callable f =>
      py_par_bulk_query_tokens hash bh (c_container m) (c_hash m) order sched1 sched2 (c_native m)
        (f <$> docs)
  | Named _ =>
      py_par_bulk_query lower shingles_str shingles_words hash bh (c_container m) (c_hash m) order
        sched1 sched2 (c_native m) docs
  end.
Definition class_par_bulk_query_return_similarity (sched1 sched2 : list nat) (m : class_index)
    (docs : list text) : res (list (list (Z * f64))) :=
  match c_analyzer m with
  | Callable f =>
      py_par_bulk_query_tokens_return_similarity hash bh (c_container m) (c_hash m) order sort
        sched1 sched2 (c_native m) (f <$> docs)
  | Named _ =>
      py_par_bulk_query_return_similarity lower shingles_str shingles_words hash bh (c_container m)
        (c_hash m) order sort sched1 sched2 (c_native m) docs
  end.

(** minhash.py:237-241 [size]. *)
Definition class_size (m : class_index) : nat := py_size (c_container m) (c_native m).
End Class.
