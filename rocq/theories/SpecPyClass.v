(** Specification vocabulary for the classes of minhash.py and simhash.py, and for their
    tokenization. *)
From stdpp Require Import base list gmap strings.
From Coq Require Import NArith ZArith.
From Verif Require Import Text SpecText StringIndex PyTokenizer PyMinHash SpecPy.

Section ClassContent.
Context (toks : text -> option (list token)).

(** The pairs a call of the class asks to store; [toks] gives the tokens of a document. *)
Definition casked (o : class_op) : list (Z * option (list token)) :=
  match o with
  | CInsertDocument id doc => [(id, toks doc)]
  | CParBulkInsertDocs _ _ ids docs => zip ids (toks <$> docs)
  | CRemove _ => []
  end.
Definition cbatch_raises (o : class_op) : bool :=
  match o with
  | CParBulkInsertDocs _ _ ids docs => (100 <=? length ids)%nat && missing (toks <$> docs)
  | _ => false
  end.
Definition craises (o : class_op) : bool := missing (casked o).*2 || cbatch_raises o.
Definition ccontent_step (c : gmap Z (list token)) (o : class_op) : gmap Z (list token) :=
  match o with
  | CRemove id => delete id c
  | _ => if cbatch_raises o then c else put c (casked o)
  end.
Definition ccontent (ops : list class_op) : gmap Z (list token) := fold_left ccontent_step ops ∅.
Fixpoint cfresh_from (c : gmap Z (list token)) (ops : list class_op) : Prop :=
  match ops with
  | [] => True
  | o :: ops' => (cbatch_raises o = false -> fresh_put c (casked o)) /\ cfresh_from (ccontent_step c o) ops'
  end.
Definition cfresh (ops : list class_op) : Prop := cfresh_from ∅ ops.
End ClassContent.

(** The tokens a class object uses for a document: those of the callable, else those of the
    native class. *)
Definition class_tokens (native : string -> text -> option (list token)) (an : analyzer) (doc : text)
  : option (list token) :=
  match an with
  | Callable f => Some (map as_str (f doc))
  | Named s => native s doc
  end.

(** [spec_tokens name range doc ts]: [ts] are the tokens of [doc] for an ascending or absent
    range, as text: word by word, or window by window. *)
Inductive spec_tokens : string -> option (nat * nat) -> text -> list token -> Prop :=
| st_words name doc ws : name ≠ "char"%string -> runs doc ws ->
    spec_tokens name None doc (as_str <$> ws)
| st_chars_default doc : spec_tokens "char" None doc (as_str <$> shingle_windows doc 3 4)
| st_chars from to doc : (1 <= from < to)%nat ->
    spec_tokens "char" (Some (from, to)) doc (as_str <$> shingle_windows doc from to)
| st_word_windows name from to doc ws : name ≠ "char"%string -> (from < to)%nat -> runs doc ws ->
    spec_tokens name (Some (from, to)) doc
      ((fun w => TWords (utf8_text <$> w)) <$> shingle_windows ws from to).
