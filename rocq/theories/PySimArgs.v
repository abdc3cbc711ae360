(** Model of the calls of py-gaoya/gaoya/simhash.py with arbitrary Python objects as arguments.
    Definitions only. The objects, their conversion by pyo3, and what is assumed of callables are
    those of PyArgs.v; [return_hamming_distance] and [return_similarity] are bools. *)
From stdpp Require Import base list gmap strings.
From Coq Require Import NArith ZArith SpecFloat.
From Verif Require Import Base Float StringIndex PyTokenizer PyMinHash PySimHash PyArgs.

(** The object: the native index of width [W] and the analyzer. *)
Record sdyn_index := SDynIndex { sd_native : py_sindex; sd_analyzer : dyn_analyzer }.

(** simhash.py:69-83 [insert_document]: the native call after conversion. *)
Definition sdyn_call (an : dyn_analyzer) (id doc : pyval) : outcome py_sop :=
  match an with
  | DCallable f => t ← f doc; i ← to_i64 id; ts ← to_vec to_str t; Ret (SInsertTokens i ts)
  | DNamed => i ← to_i64 id; d ← to_str doc; Ret (SInsertDocument i d)
  end.

Section SDyn.
Context (lower : text -> text)
        (shingles_str : list N -> nat -> option (list (list N)))
        (shingles_words : list (list N) -> nat -> option (list (list (list N)))).
Context (W : nat) (hash : token -> N).

(** One insertion, with the exception it raises; a history of insertions. *)
Definition sdyn_insert (m : sdyn_index) (id doc : pyval) : sdyn_index * option exn :=
  match sdyn_call (sd_analyzer m) id doc with
  | Ret c =>
      let r := ps_step lower shingles_str shingles_words W hash (sd_native m) c in
      (SDynIndex r.1 (sd_analyzer m), if r.2 then Some EPanic else None)
  | Raise e => (m, Some e)
  end.
Definition sdyn_run (m : sdyn_index) (l : list (pyval * pyval)) : sdyn_index :=
  fold_left (fun m p => (sdyn_insert m p.1 p.2).1) l m.

Context (order : gset Z -> list Z) (sort : list (Z * nat) -> list (Z * nat)).
Context (sched1 sched2 : list nat).

(** sim_hash.rs:118-164: the query methods of the native class by name. In [o.name(arg)] the name
    is looked up before [arg] is evaluated, and [arg] is converted after that. *)
Definition native_query (m : py_sindex) (name : string) (arg : outcome pyval) : outcome py_value :=
  if String.eqb name "query" then
    v ← arg; d ← to_str v;
    l ← of_res (ps_query lower shingles_str shingles_words W hash order m d); Ret (VIds l)
  else if String.eqb name "query_return_distance" then
    v ← arg; d ← to_str v;
    l ← of_res (ps_query_return_distance lower shingles_str shingles_words W hash order sort m d); Ret (VPairs l)
  else if String.eqb name "query_tokens" then
    v ← arg; ts ← to_vec to_str v;
    l ← of_res (ps_query_tokens W hash order m ts); Ret (VIds l)
  else if String.eqb name "query_tokens_return_distance" then
    v ← arg; ts ← to_vec to_str v;
    l ← of_res (ps_query_tokens_return_distance W hash order sort m ts); Ret (VPairs l)
  else if String.eqb name "par_bulk_query" then
    v ← arg; ds ← to_vec to_str v;
    l ← of_res (ps_par_bulk_query lower shingles_str shingles_words W hash order sched1 sched2 m ds); Ret (VIdLists l)
  else if String.eqb name "par_bulk_query_return_distance" then
    v ← arg; ds ← to_vec to_str v;
    l ← of_res (ps_par_bulk_query_return_distance lower shingles_str shingles_words W hash order sort sched1 sched2 m ds);
    Ret (VPairLists l)
  else if String.eqb name "par_bulk_query_tokens_return_similarity" then
    v ← arg; tss ← to_vec (to_vec to_str) v;
    l ← of_res (ps_par_bulk_query_tokens_return_similarity W hash order sort sched1 sched2 m tss); Ret (VPairLists l)
  else Raise (EAttributeError name).

(** simhash.py:85-112 [query]. *)
Definition sdyn_query (m : sdyn_index) (doc : pyval) (return_hamming_distance : bool) : outcome py_value :=
  match sd_analyzer m with
  | DCallable f =>
      if return_hamming_distance then native_query (sd_native m) "query_tokens_return_similarity" (f doc)
      else native_query (sd_native m) "query_tokens" (f doc)
  | DNamed =>
      if return_hamming_distance then native_query (sd_native m) "query_return_similarity" (Ret doc)
      else native_query (sd_native m) "query" (Ret doc)
  end.

(** simhash.py:114-142 [par_bulk_query]: the list of analyzed documents is made before the name is
    looked up. *)
Definition sdyn_par_bulk_query (m : sdyn_index) (docs : pyval) (return_similarity : bool) : outcome py_value :=
  match sd_analyzer m with
  | DCallable f =>
      ds ← py_iter docs; ts ← mapM f ds;
      if return_similarity then native_query (sd_native m) "par_bulk_query_tokens_return_distance" (Ret (VList ts))
      else native_query (sd_native m) "par_bulk_query_tokens" (Ret (VList ts))
  | DNamed =>
      if return_similarity then native_query (sd_native m) "par_bulk_query_tokens_return_distance" (Ret docs)
      else native_query (sd_native m) "par_bulk_query" (Ret docs)
  end.
End SDyn.

(** ** The constructor *)

(** Numbers, for comparison: [Scaled m e] is m * 2^e. *)
Inductive number := Scaled (m e : Z) | Infinite (negative : bool) | NotANumber.
Definition to_number (v : pyval) : option number :=
  match v with
  | VInt z => Some (Scaled z 0)
  | VBool b => Some (Scaled (if b then 1 else 0) 0)
  | VFloat (S754_finite s m e) => Some (Scaled (if s then Z.neg m else Z.pos m) e)
  | VFloat (S754_zero _) => Some (Scaled 0 0)
  | VFloat (S754_infinity s) => Some (Infinite s)
  | VFloat S754_nan => Some NotANumber
  | _ => None
  end.
(** [x >= y], exactly. *)
Definition number_ge (x y : number) : bool :=
  match x, y with
  | Scaled m e, Scaled m' e' => (m' * 2 ^ (e' - Z.min e e') <=? m * 2 ^ (e - Z.min e e'))%Z
  | NotANumber, _ | _, NotANumber => false
  | Infinite false, _ | _, Infinite true => true
  | _, _ => false
  end.

(** simhash.py:53-56: the comparisons. [num_blocks < 3 and num_blocks > 32] is never true of a
    number, and raises for other objects. *)
Definition sdyn_compare (num_blocks hamming_distance : pyval) : outcome unit :=
  match to_number num_blocks with
  | None => Raise ETypeError
  | Some x =>
      match to_number hamming_distance with
      | None => Raise ETypeError
      | Some y => if number_ge y x then Raise EValueError else Ret tt
      end
  end.

(** simhash.py:51-52 [hash_size not in [64, 128]] and 63 [hash_size == 64]. *)
Definition sdyn_width (hash_size : pyval) : outcome nat :=
  if equals_int hash_size 64 then Ret 64 else if equals_int hash_size 128 then Ret 128 else Raise EValueError.

(** simhash.py:57-62: [analyzer not in {'word', 'char'}] raises for an object without a hash. *)
Definition sdyn_name (hashable : pyval -> bool) (an : analyzer_arg) : outcome string :=
  match an with
  | ACallable _ => Ret "word"%string
  | AObject v =>
      if hashable v then
        match v with
        | VStr cs =>
            if bool_decide (cs = literal "word") then Ret "word"%string
            else if bool_decide (cs = literal "char") then Ret "char"%string
            else Raise EValueError
        | _ => Raise EValueError
        end
      else Raise ETypeError
  end.

(** simhash.py:43-66 [__init__], with the width of the native index; [hashable] tells which objects
    have a hash. *)
Definition sdyn_new (hashable : pyval -> bool) (hash_size num_blocks hamming_distance : pyval) (an : analyzer_arg)
    (lowercase range : pyval) : outcome (nat * sdyn_index) :=
  W ← sdyn_width hash_size;
  _ ← sdyn_compare num_blocks hamming_distance;
  name ← sdyn_name hashable an;
  nb ← to_usize num_blocks;
  hd ← to_usize hamming_distance;
  lc ← to_option to_bool lowercase;
  r ← to_option to_pair range;
  m ← of_res (ps_new W nb hd (Some name) lc r);
  Ret (W, SDynIndex m (match an with ACallable f => DCallable f | AObject _ => DNamed end)).
