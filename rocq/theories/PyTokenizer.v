(** Model of py-gaoya/src/lib.rs and of the tokenization in py-gaoya/src/min_hash.rs and
    sim_hash.rs. Definitions only.

    A Python string is the list of its characters; the native code sees its UTF-8 bytes
    ([utf8_text]). External calls are arguments: [lower] is [str::to_lowercase];
    [shingles_str] and [shingles_words] list what the iterators of the crate [shingles] yield
    ([None] if they panic), for a str and for a slice of words. *)
From stdpp Require Import base list strings.
From Coq Require Import NArith.
From Verif Require Import Base Text SpecText StringIndex.

(** lib.rs:22-27 [TokenizerSpecification]. *)
Inductive tokenizer :=
| CharShingle (from : nat) (to : option nat)
| WhiteSpace
| WhiteSpaceShingle (from : nat) (to : option nat).

(** lib.rs:30-58 [TokenizerSpecification::new]; any name other than char means words. *)
Definition tokenizer_new (name : string) (range : option (nat * nat)) : tokenizer :=
  if String.eqb name "char" then
    match range with
    | Some r => if (r.1 =? r.2)%nat then CharShingle r.1 None else CharShingle r.1 (Some r.2)
    | None => CharShingle 3 (Some 4)
    end
  else
    match range with
    | Some r => if (r.1 =? r.2)%nat then WhiteSpaceShingle r.1 None
                else WhiteSpaceShingle r.1 (Some r.2)
    | None => WhiteSpace
    end.

(** What is hashed: a str, or a slice of str. *)
Inductive token := TStr (bytes : list N) | TWords (words : list (list N)).

(** Rounds that are enough to exhaust a MultiShingles iterator (proved in PyFacts.v). *)
Definition rounds (len to : nat) : nat := (len + 2) * (to + 3).

Section Tokenize.
Context (lower : text -> text)
        (shingles_str : list N -> nat -> option (list (list N)))
        (shingles_words : list (list N) -> nat -> option (list (list (list N)))).

(** The tokens a [for] loop sees; anything but a normal end is no value. *)
Definition all_items {Item} (r : list Item * status) : option (list Item) :=
  match r.2 with Ended => Some r.1 | _ => None end.

(** The words of a document as str. *)
Definition words (doc : text) : list (list N) := utf8_text <$> whitespace_split doc.

(** min_hash.rs:72-94 [tokenize_and_minhash] and sim_hash.rs:44-66 [tokenize_and_simhash]: the
    tokens handed to [create_signature]. *)
Definition tokenize (spec : tokenizer) (doc : text) : option (list token) :=
  match spec with
  | CharShingle from None => map TStr <$> shingles_str (utf8_text doc) from
  | CharShingle from (Some to) =>
      map TStr <$> all_items (shingle_text_range (rounds (length doc) to) (utf8_text doc) from to)
  | WhiteSpace => Some (TStr <$> words doc)
  | WhiteSpaceShingle from None => map TWords <$> shingles_words (words doc) from
  | WhiteSpaceShingle from (Some to) =>
      map TWords <$> all_items (drive slice_next (rounds (length (words doc)) to)
                                   (multi_shingles (words doc) from to))
  end.

(** min_hash.rs:96-105, 116-127, 164-170, 177-184 and sim_hash.rs:68-75 [doc2signature]:
    lower-casing before tokenizing. *)
Definition doc_tokens (spec : tokenizer) (lowercase : bool) (doc : text) : option (list token) :=
  tokenize spec (if lowercase then lower doc else doc).

(** min_hash.rs:107-110, 154-155: a given list of tokens. *)
Definition given_tokens (tokens : list text) : list token := (fun t => TStr (utf8_text t)) <$> tokens.
End Tokenize.
