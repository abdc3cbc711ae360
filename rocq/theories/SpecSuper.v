(** Specification vocabulary for the SuperMinHash variants. *)
From stdpp Require Import base list.
From Coq Require Import NArith ZArith.
From Verif Require Import Float.

(** A draw from 0..1 in f32. *)
Definition is_unit (r : f32) : Prop :=
  f32_valid r = true /\ SFleb (f32_of_N 0) r = true /\ SFltb r f32_one = true /\ r ≠ S754_zero true.

(** The least of 100000000 and the numbers of a list. *)
Definition least (l : list N) : N := foldr N.min 100000000%N l.

(** The random permutation of 0..m given by the positions [ks 0], [ks 1], ...: round [j] swaps
    places [j] and [ks j]. *)
Definition swapped (l : list nat) (j k : nat) : list nat :=
  match l !! j, l !! k with Some x, Some y => <[k := x]> (<[j := y]> l) | _, _ => l end.
Definition shuffled (ks : nat -> nat) (m n : nat) : list nat :=
  foldl (fun l j => swapped l j (ks j)) (seq 0 m) (seq 0 n).
(** What round [j] puts at place [j]; later rounds leave it there. *)
Definition slot (ks : nat -> nat) (m j : nat) : option nat := shuffled ks m (S j) !! j.
