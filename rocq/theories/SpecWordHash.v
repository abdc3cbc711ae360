(** Vocabulary of C103: what is fed to the token hash for a shingle of words. *)
From stdpp Require Import base list list_numbers.
From Coq Require Import NArith.
From Verif Require Import SpecLowBits.
Local Open Scope N_scope.

(** A number as eight bytes, the lowest first. *)
Definition eight_bytes (n : N) : list N := (fun i => (n / 256 ^ N.of_nat i) mod 256) <$> seq 0 8.

(** The number of words, then each word followed by a byte 255. *)
Definition shingle_bytes (ws : list (list N)) : list N :=
  eight_bytes (N.of_nat (length ws)) ++ concat ((fun w => w ++ [255]) <$> ws).

(** UTF-8 never uses the byte 255. *)
Definition utf8_like (w : list N) : Prop := Forall (fun b => b < 255) w.

(** The number of odd elements. *)
Definition odd_ones (l : list N) : nat := length (filter (fun b => N.odd b = true) l).

(** Shingles of as many words that differ in letter case only, and in how many letters. *)
Definition shingle_case (us vs : list (list N)) : Prop := Forall2 case_variants us vs.
Definition shingle_changes (us vs : list (list N)) : nat := sum_list (zip_with case_changes us vs).
