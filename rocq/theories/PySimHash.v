(** Model of py-gaoya/src/sim_hash.rs and py-gaoya/gaoya/simhash.py. Definitions only.

    The two widths of the macro (sim_hash.rs:11-172) are the argument [W]; the token hash
    (SimSipHasher64/128 with the fixed keys 5 and 6) is [hash]. *)
From stdpp Require Import base list gmap strings.
From Coq Require Import NArith ZArith.
From Verif Require Import Base Par SimHashBits Permutation SimHash SimHashIndex Text StringIndex
  PyTokenizer PyMinHash.

(** sim_hash.rs:14-19: the fields of the class. *)
Record py_sindex := PySIndex {
  ps_inner : sindex Z;
  ps_tokenizer : tokenizer;
  ps_lowercase : bool;
}.

(** The mutating methods. *)
Inductive py_sop :=
| SInsertDocument (id : Z) (doc : text)
| SInsertTokens (id : Z) (tokens : list text)
| SParBulkInsertTokens (sched1 sched2 : list nat) (ids : list Z) (tokens : list (list text))
| SParBulkInsertDocs (sched1 sched2 : list nat) (ids : list Z) (docs : list text).

(** Python values: the arguments and results of the query methods, and what a call ends with. *)
Inductive py_arg :=
| ADoc (doc : text)
| ATokens (tokens : list text)
| ADocs (docs : list text)
| ADocTokens (tokens : list (list text)).
Inductive py_value :=
| VIds (l : list Z)
| VPairs (l : list (Z * nat))
| VIdLists (l : list (list Z))
| VPairLists (l : list (list (Z * nat))).
Inductive py_outcome := Value (v : py_value) | PanicException | TypeError | AttributeError (name : string).

Section PySimHash.
Context (lower : text -> text)
        (shingles_str : list N -> nat -> option (list (list N)))
        (shingles_words : list (list N) -> nat -> option (list (list (list N)))).
Context (W : nat) (hash : token -> N).
Notation doc_tokens := (doc_tokens lower shingles_str shingles_words).

(** sim_hash.rs:30-42 [new]; [None] when [SimHashIndex::new] panics. *)
Definition ps_new (num_blocks max_distance : nat) (analyzer : option string)
    (lowercase : option bool) (range : option (nat * nat)) : res py_sindex :=
  inner ← sindex_new W num_blocks max_distance;
  Ok (PySIndex inner (tokenizer_new (default "word"%string analyzer) range) (default false lowercase)).

(** sim_hash.rs:68-75 [doc2signature] with 44-66 [tokenize_and_simhash]. *)
Definition doc2signature (m : py_sindex) (doc : text) : res N :=
  toks ← doc_tokens (ps_tokenizer m) (ps_lowercase m) doc;
  create_signature W W hash toks.

(** sim_hash.rs:92, 98, 133, 142, 161: signature of given tokens. *)
Definition tokens2signature (tokens : list text) : res N :=
  create_signature W W hash (given_tokens tokens).

(** sim_hash.rs:77-81 [par_bulk_doc2signatures], and 110-113. *)
Definition par_bulk_doc2signatures (sched : list nat) (m : py_sindex) (docs : list text)
  : res (list N) := par_map (doc2signature m) sched docs.
(** sim_hash.rs:96-99 and 160-162. *)
Definition par_bulk_tokens2signatures (sched : list nat) (tokens : list (list text))
  : res (list N) := par_map tokens2signature sched tokens.

Definition ps_with (m : py_sindex) (inner : sindex Z) : py_sindex :=
  PySIndex inner (ps_tokenizer m) (ps_lowercase m).

(** sim_hash.rs:85-88 [insert_document] and 90-93 [insert_tokens]; the flag tells whether the
    call panicked. *)
Definition ps_insert_sig (id : Z) (sig : res N) (m : py_sindex) : py_sindex * bool :=
  match sig with
  | Some s => (ps_with m (sinsert id s (ps_inner m)), false)
  | None => (m, true)
  end.
Definition ps_insert_document (id : Z) (doc : text) (m : py_sindex) : py_sindex * bool :=
  ps_insert_sig id (doc2signature m doc) m.
Definition ps_insert_tokens (id : Z) (tokens : list text) (m : py_sindex) : py_sindex * bool :=
  ps_insert_sig id (tokens2signature tokens) m.

Definition ps_insert_sigs (sched : list nat) (ids : list Z) (sigs : res (list N)) (m : py_sindex)
  : py_sindex * bool :=
  match sigs with
  | Some sigs => (ps_with m (spar_bulk_insert sched ids sigs (ps_inner m)), false)
  | None => (m, true)
  end.

(** sim_hash.rs:95-101 [par_bulk_insert_tokens]. *)
Definition ps_par_bulk_insert_tokens (sched1 sched2 : list nat) (ids : list Z)
    (tokens : list (list text)) (m : py_sindex) : py_sindex * bool :=
  ps_insert_sigs sched2 ids (par_bulk_tokens2signatures sched1 tokens) m.

(** sim_hash.rs:106-108: the [for] loop; a panic ends it. *)
Fixpoint ps_loop (l : list (Z * text)) (m : py_sindex) : py_sindex * bool :=
  match l with
  | [] => (m, false)
  | p :: l' => let r := ps_insert_document p.1 p.2 m in if r.2 then r else ps_loop l' r.1
  end.

(** sim_hash.rs:104-116 [par_bulk_insert_docs]. *)
Definition ps_par_bulk_insert_docs (sched1 sched2 : list nat) (ids : list Z) (docs : list text)
    (m : py_sindex) : py_sindex * bool :=
  if (length ids <? 100)%nat then ps_loop (zip ids docs) m
  else ps_insert_sigs sched2 ids (par_bulk_doc2signatures sched1 m docs) m.

Definition ps_step (m : py_sindex) (o : py_sop) : py_sindex * bool :=
  match o with
  | SInsertDocument id doc => ps_insert_document id doc m
  | SInsertTokens id tokens => ps_insert_tokens id tokens m
  | SParBulkInsertTokens sched1 sched2 ids tokens =>
      ps_par_bulk_insert_tokens sched1 sched2 ids tokens m
  | SParBulkInsertDocs sched1 sched2 ids docs => ps_par_bulk_insert_docs sched1 sched2 ids docs m
  end.

Definition ps_run (m : py_sindex) (ops : list py_sop) : py_sindex :=
  fold_left (fun m o => (ps_step m o).1) ops m.

(** ** Queries *)
Context (order : gset Z -> list Z) (sort : list (Z * nat) -> list (Z * nat)).

(** sim_hash.rs:118-125 [query], 132-139 [query_tokens]. *)
Definition ps_query (m : py_sindex) (doc : text) : res (list Z) :=
  sig ← doc2signature m doc; order <$> squery (ps_inner m) sig.
Definition ps_query_tokens (m : py_sindex) (tokens : list text) : res (list Z) :=
  sig ← tokens2signature tokens; order <$> squery (ps_inner m) sig.

(** sim_hash.rs:127-130 [query_return_distance], 141-144 [query_tokens_return_distance]. *)
Definition ps_query_return_distance (m : py_sindex) (doc : text) : res (list (Z * nat)) :=
  sig ← doc2signature m doc; squery_return_distance order sort (ps_inner m) sig.
Definition ps_query_tokens_return_distance (m : py_sindex) (tokens : list text)
  : res (list (Z * nat)) :=
  sig ← tokens2signature tokens; squery_return_distance order sort (ps_inner m) sig.

(** The parallel queries. *)
Context (sched1 sched2 : list nat).

(** sim_hash.rs:146-152 [par_bulk_query]. *)
Definition ps_par_bulk_query (m : py_sindex) (docs : list text) : res (list (list Z)) :=
  sigs ← par_bulk_doc2signatures sched1 m docs;
  map order <$> spar_bulk_query sched2 (ps_inner m) sigs.

(** sim_hash.rs:154-157 [par_bulk_query_return_distance], 159-164
    [par_bulk_query_tokens_return_similarity]. *)
Definition ps_par_bulk_query_return_distance (m : py_sindex) (docs : list text)
  : res (list (list (Z * nat))) :=
  sigs ← par_bulk_doc2signatures sched1 m docs;
  spar_bulk_query_return_distance order sort sched2 (ps_inner m) sigs.
Definition ps_par_bulk_query_tokens_return_similarity (m : py_sindex) (tokens : list (list text))
  : res (list (list (Z * nat))) :=
  sigs ← par_bulk_tokens2signatures sched1 tokens;
  spar_bulk_query_return_distance order sort sched2 (ps_inner m) sigs.

(** What a call of a native method gives. *)
Definition outcome {A} (f : A -> py_value) (r : res A) : py_outcome :=
  match r with Some a => Value (f a) | None => PanicException end.

(** sim_hash.rs:20-166: the query methods of the native class by name. Looking up any other name
    raises AttributeError, before the arguments are converted. *)
Definition native_call (m : py_sindex) (name : string) (arg : py_arg) : py_outcome :=
  if String.eqb name "query" then
    match arg with ADoc doc => outcome VIds (ps_query m doc) | _ => TypeError end
  else if String.eqb name "query_return_distance" then
    match arg with ADoc doc => outcome VPairs (ps_query_return_distance m doc) | _ => TypeError end
  else if String.eqb name "query_tokens" then
    match arg with ATokens toks => outcome VIds (ps_query_tokens m toks) | _ => TypeError end
  else if String.eqb name "query_tokens_return_distance" then
    match arg with ATokens toks => outcome VPairs (ps_query_tokens_return_distance m toks) | _ => TypeError end
  else if String.eqb name "par_bulk_query" then
    match arg with ADocs docs => outcome VIdLists (ps_par_bulk_query m docs) | _ => TypeError end
  else if String.eqb name "par_bulk_query_return_distance" then
    match arg with ADocs docs => outcome VPairLists (ps_par_bulk_query_return_distance m docs) | _ => TypeError end
  else if String.eqb name "par_bulk_query_tokens_return_similarity" then
    match arg with
    | ADocTokens toks => outcome VPairLists (ps_par_bulk_query_tokens_return_similarity m toks)
    | _ => TypeError
    end
  else AttributeError name.

(** ** simhash.py: the class SimHashStringIndex *)

(** simhash.py:68-83 [insert_document]: the native call made. *)
Definition sclass_insert (an : analyzer) (id : Z) (doc : text) : py_sop :=
  match an with
  | Callable f => SInsertTokens id (f doc)
  | Named _ => SInsertDocument id doc
  end.

(** simhash.py:85-112 [query]. *)
Definition sclass_query (m : py_sindex) (an : analyzer) (doc : text) (return_hamming_distance : bool)
  : py_outcome :=
  match an with
  | Callable f =>
      if return_hamming_distance then native_call m "query_tokens_return_similarity" (ATokens (f doc))
      else native_call m "query_tokens" (ATokens (f doc))
  | Named _ =>
      if return_hamming_distance then native_call m "query_return_similarity" (ADoc doc)
      else native_call m "query" (ADoc doc)
  end.

(** simhash.py:114-142 [par_bulk_query]. *)
Definition sclass_par_bulk_query (m : py_sindex) (an : analyzer) (docs : list text)
    (return_similarity : bool) : py_outcome :=
  match an with
  | Callable f =>
      let analyzed_docs := f <$> docs in
      if return_similarity then native_call m "par_bulk_query_tokens_return_distance" (ADocTokens analyzed_docs)
      else native_call m "par_bulk_query_tokens" (ADocTokens analyzed_docs)
  | Named _ =>
      if return_similarity then native_call m "par_bulk_query_tokens_return_distance" (ADocs docs)
      else native_call m "par_bulk_query" (ADocs docs)
  end.
End PySimHash.

(** How [SimHashStringIndex(...)] ends; the four ValueErrors are told apart by their text. *)
Inductive smade :=
| SMade (W : nat) (m : py_sindex)
| BadHashSize | BadNumBlocks | BadDistance | BadAnalyzer
| OverflowError
| SPanic.

(** simhash.py:43-66 [__init__]. A negative number is rejected by the conversion
    to [usize]; so is one from 2^64 on, which ends as [SPanic] here. *)
Definition sclass_new (hash_size num_blocks hamming_distance : Z) (an : analyzer)
    (lowercase : option bool) (range : option (nat * nat)) : smade :=
  if negb (bool_decide (hash_size ∈ [64; 128]%Z)) then BadHashSize
  else if (num_blocks <? 3)%Z && (32 <? num_blocks)%Z then BadNumBlocks
  else if (num_blocks <=? hamming_distance)%Z then BadDistance
  else if match an with
          | Callable _ => false
          | Named s => negb (bool_decide (s ∈ ["word"; "char"]%string))
          end then BadAnalyzer
  else if (num_blocks <? 0)%Z || (hamming_distance <? 0)%Z then OverflowError
  else
    let name := match an with Callable _ => "word"%string | Named s => s end in
    let W := if (hash_size =? 64)%Z then 64 else 128 in
    match ps_new W (Z.to_nat num_blocks) (Z.to_nat hamming_distance) (Some name) lowercase range with
    | Some m => SMade W m
    | None => SPanic
    end.
