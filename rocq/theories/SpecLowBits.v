(** Vocabulary of C102: texts whose bytes agree in low bits. *)
From stdpp Require Import base list.
From Coq Require Import NArith.
Local Open Scope N_scope.

(** The same number of bytes, agreeing one by one in their lowest [k] bits. *)
Definition same_low (k : N) (u v : list N) : Prop := Forall2 (fun b c => b mod 2 ^ k = c mod 2 ^ k) u v.

(** At how many places bit [k] differs. *)
Definition flips (k : N) (u v : list N) : nat :=
  length (filter (fun p => N.testbit p.1 k <> N.testbit p.2 k) (zip u v)).

(** The ASCII letters 65-90 and 97-122; two bytes that are the same letter in either case. *)
Definition upper_letter (b : N) : Prop := 65 <= b /\ b <= 90.
Definition same_letter (b c : N) : Prop :=
  b = c \/ (upper_letter b /\ c = b + 32) \/ (upper_letter c /\ b = c + 32).
Definition case_variants (u v : list N) : Prop := Forall2 same_letter u v.
(** In how many letters the case differs. *)
Definition case_changes (u v : list N) : nat := length (filter (fun p => p.1 <> p.2) (zip u v)).
