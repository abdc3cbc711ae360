(** Vocabulary of C69 and C70: all ways to draw a list. *)
From stdpp Require Import base list.
From Coq Require Import NArith.
From Verif Require Import MinHasher.
Local Open Scope nat_scope.

(** All lists of [n] elements of [F]. *)
Fixpoint tuples {A} (F : list A) (n : nat) : list (list A) :=
  match n with 0 => [[]] | S n' => F ≫= fun x => cons x <$> tuples F n' end.

(** Binomial coefficients. *)
Fixpoint binom (n k : nat) : nat :=
  match n, k with
  | _, 0 => 1
  | 0, S _ => 0
  | S n', S k' => binom n' k' + binom n' k
  end.

(** The distance of two natural numbers. *)
Definition apart (x y : nat) : nat := (x - y) + (y - x).

(** The hasher with the given coefficients. *)
Definition drawn (cs : list (N * N)) : hasher := Hasher cs.*1 cs.*2 (length cs).
