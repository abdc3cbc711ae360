(** Vocabulary of C72: the text of a file. *)
From stdpp Require Import base list.
From Coq Require Import NArith.
From Verif Require Import SpecText.

(** Unicode scalar values. *)
Definition scalar (c : N) : Prop := (c < 55296 \/ 57344 <= c < 1114112)%N.

(** UTF-8: a byte sequence means a text if it is the concatenation of the encodings of the
    text's characters. *)
Definition is_utf8 (meaning : list N -> option (list N)) : Prop :=
  forall l t, meaning l = Some t <-> l = utf8_text t /\ Forall scalar t.

(** A stretch of bytes that ends with a line feed or with a failed read. *)
Inductive ending := LineFeed | ReadError.
Definition events (p : list N * ending) : list (option N) :=
  (Some <$> p.1) ++ [match p.2 with LineFeed => Some 10%N | ReadError => None end].

(** A text without one carriage return at its end. *)
Definition without_cr (t : list N) : list N :=
  match last t with Some 13%N => removelast t | _ => t end.

(** Bytes without a line feed. *)
Definition one_line (l : list N) : Prop := (10%N) ∉ l.

(** What a load makes of such a stretch, given what its bytes mean. *)
Definition line_of (meaning : list N -> option (list N)) (p : list N * ending) : option (list N) :=
  match p.2 with LineFeed => without_cr <$> meaning p.1 | ReadError => None end.

(** A file of texts, each with its line end: a carriage return and a line feed, or only the
    line feed. *)
Definition file_of (docs : list (list N * bool)) : list N :=
  concat ((fun d : list N * bool => utf8_text d.1 ++ (if d.2 then [13; 10]%N else [10]%N)) <$> docs).
(** A text such a file can hold. *)
Definition fits (d : list N * bool) : Prop :=
  Forall scalar d.1 /\ one_line d.1 /\ (d.2 = false -> last d.1 <> Some 13%N).
