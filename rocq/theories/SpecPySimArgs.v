(** Specification vocabulary for the arguments of the Python class SimHashStringIndex. *)
From stdpp Require Import base list gmap strings.
From Coq Require Import NArith ZArith SpecFloat.
From Verif Require Import Base Float StringIndex PyMinHash PySimHash PyArgs SpecPyArgs.

(** The native call of an accepted insertion, the exception of another one. *)
Inductive saccepted : dyn_analyzer -> pyval -> pyval -> py_sop -> Prop :=
| sacc_document id doc i d : id_is id i -> doc_is doc d -> saccepted DNamed id doc (SInsertDocument i d)
| sacc_tokens f id doc i t ts : returns f doc t -> id_is id i -> seq_is doc_is t ts ->
    saccepted (DCallable f) id doc (SInsertTokens i ts).
Inductive srejected : dyn_analyzer -> pyval -> pyval -> exn -> Prop :=
| srej_id id doc e : id_bad id e -> srejected DNamed id doc e
| srej_doc id doc i e : id_is id i -> doc_bad doc e -> srejected DNamed id doc e
| srej_callable f id doc e : throws f doc e -> srejected (DCallable f) id doc e
| srej_callable_id f id doc t e : returns f doc t -> id_bad id e -> srejected (DCallable f) id doc e
| srej_tokens f id doc t i e : returns f doc t -> id_is id i -> seq_bad doc_is doc_bad t e ->
    srejected (DCallable f) id doc e.

(** The native calls of a history of insertions. *)
Inductive scalls (an : dyn_analyzer) : list (pyval * pyval) -> list py_sop -> Prop :=
| scalls_nil : scalls an [] []
| scalls_accepted id doc c l cs : saccepted an id doc c -> scalls an l cs -> scalls an ((id, doc) :: l) (c :: cs)
| scalls_rejected id doc e l cs : srejected an id doc e -> scalls an l cs -> scalls an ((id, doc) :: l) cs.

(** What a method of the native class ends with, as seen from Python. *)
Definition ends {A} (f : A -> py_value) (r : res A) : PyArgs.outcome py_value :=
  match r with Some a => Ret (f a) | None => Raise EPanic end.
(** The outcomes of PySimHash.v. *)
Definition same_outcome (o : py_outcome) (o' : PyArgs.outcome py_value) : Prop :=
  match o with
  | Value v => o' = Ret v
  | PanicException => o' = Raise EPanic
  | TypeError => o' = Raise ETypeError
  | AttributeError name => o' = Raise (EAttributeError name)
  end.

(** ** The constructor *)
Inductive width_is : pyval -> nat -> Prop :=
| width_64 v : equal_to v 64 -> width_is v 64
| width_128 v : equal_to v 128 -> width_is v 128.

(** Numbers; [value_is v m e]: the finite value m * 2^e. *)
Inductive value_is : pyval -> Z -> Z -> Prop :=
| val_whole v z : whole v z -> value_is v z 0
| val_pos m e : value_is (VFloat (S754_finite false m e)) (Z.pos m) e
| val_neg m e : value_is (VFloat (S754_finite true m e)) (Z.neg m) e
| val_zero s : value_is (VFloat (S754_zero s)) 0 0.
Definition numeric (v : pyval) : Prop := (exists z, whole v z) \/ exists x, v = VFloat x.
Definition infinite (negative : bool) (v : pyval) : Prop := v = VFloat (S754_infinity negative).
Definition undefined (v : pyval) : Prop := v = VFloat S754_nan.
(** [x >= y] *)
Definition at_least (x y : pyval) : Prop :=
  (exists m e m' e', value_is x m e /\ value_is y m' e' /\
    forall k, (k <= e)%Z -> (k <= e')%Z -> (m' * 2 ^ (e' - k) <= m * 2 ^ (e - k))%Z) \/
  infinite false x /\ ~ undefined y \/ infinite true y /\ ~ undefined x.

Inductive sname_is : analyzer_arg -> string -> dyn_analyzer -> Prop :=
| sname_callable f : sname_is (ACallable f) "word" (DCallable f)
| sname_word : sname_is (AObject (VStr [119; 111; 114; 100]%N)) "word" DNamed
| sname_char : sname_is (AObject (VStr [99; 104; 97; 114]%N)) "char" DNamed.

Definition count_bad (v : pyval) (e : exn) : Prop :=
  (exists z, whole v z /\ ~ (0 <= z < 2 ^ 64)%Z /\ e = EOverflowError) \/
  (~ exists z, whole v z) /\ e = ETypeError.
Definition bool_bad (v : pyval) (e : exn) : Prop := (~ exists b, v = VBool b) /\ e = ETypeError.
Definition pair_bad (v : pyval) (e : exn) : Prop :=
  (~ exists l, v = VTuple l) /\ e = ETypeError \/
  (exists l, v = VTuple l /\ length l <> 2 /\ e = EValueError) \/
  (exists a b, v = VTuple [a; b] /\ (count_bad a e \/ exists n, count_is a n /\ count_bad b e)).
Definition opt_bad (bad : pyval -> exn -> Prop) (v : pyval) (e : exn) : Prop := v <> VNone /\ bad v e.

(** The exception of a constructor call; what is checked first decides. *)
Section Construct.
Context (hashable : pyval -> bool) (hash_size num_blocks hamming_distance : pyval) (an : analyzer_arg) (lowercase range : pyval).
Definition sized : Prop := exists W, width_is hash_size W.
Definition numbers : Prop := numeric num_blocks /\ numeric hamming_distance.
Definition checked (W : nat) (name : string) (an' : dyn_analyzer) : Prop :=
  width_is hash_size W /\ numbers /\ ~ at_least hamming_distance num_blocks /\ sname_is an name an'.
Inductive sfails : exn -> Prop :=
| sf_size : ~ sized -> sfails EValueError
| sf_number : sized -> ~ numbers -> sfails ETypeError
| sf_distance : sized -> numbers -> at_least hamming_distance num_blocks -> sfails EValueError
| sf_name v : sized -> numbers -> ~ at_least hamming_distance num_blocks -> an = AObject v ->
    (~ exists name an', sname_is an name an') -> sfails (if hashable v then EValueError else ETypeError)
| sf_blocks W name an' e : checked W name an' -> count_bad num_blocks e -> sfails e
| sf_max W name an' nb e : checked W name an' -> count_is num_blocks nb -> count_bad hamming_distance e -> sfails e
| sf_lowercase W name an' nb hd e : checked W name an' -> count_is num_blocks nb -> count_is hamming_distance hd ->
    opt_bad bool_bad lowercase e -> sfails e
| sf_range W name an' nb hd lc e : checked W name an' -> count_is num_blocks nb -> count_is hamming_distance hd ->
    opt_is bool_is lowercase lc -> opt_bad pair_bad range e -> sfails e
| sf_panic W name an' nb hd lc r : checked W name an' -> count_is num_blocks nb -> count_is hamming_distance hd ->
    opt_is bool_is lowercase lc -> opt_is pair_is range r -> ps_new W nb hd (Some name) lc r = None -> sfails EPanic.
Inductive smakes : nat -> py_sindex -> dyn_analyzer -> Prop :=
| sm_made W name an' nb hd lc r m : width_is hash_size W -> sname_is an name an' ->
    count_is num_blocks nb -> count_is hamming_distance hd -> hd < nb ->
    opt_is bool_is lowercase lc -> opt_is pair_is range r ->
    ps_new W nb hd (Some name) lc r = Some m -> smakes W m an'.
End Construct.
