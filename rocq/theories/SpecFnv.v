(** Vocabulary of C74: the published FNV-1a hash with 64 bits. *)
From stdpp Require Import base list.
From Coq Require Import NArith.
Local Open Scope N_scope.

(** Start with the offset basis; for each byte, exclusive or, then multiply by the FNV prime
    2^40 + 2^8 + 0xb3. *)
Inductive fnv1a_64 : list N -> N -> Prop :=
  | fnv1a_none : fnv1a_64 [] 14695981039346656037
  | fnv1a_next l h b : fnv1a_64 l h -> fnv1a_64 (l ++ [b]) ((N.lxor h b * (2 ^ 40 + 2 ^ 8 + 179)) mod 2 ^ 64).

(** A string of bytes. *)
Definition byte_string (l : list N) : Prop := Forall (fun b => b < 256) l.
