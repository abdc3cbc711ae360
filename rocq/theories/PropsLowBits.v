(** C102: the low bits of the default token hash, and letter case. *)
From stdpp Require Import base list.
From Coq Require Import NArith ZArith.
From Verif Require Import Base MinHasher SpecMinHash Fnv SpecCollision PropsCollision SpecLowBits LowBitsFacts.
Local Open Scope N_scope.

(** The low bits of the hash of a string depend only on the low bits of its bytes. *)
Theorem C102_low_bits (k : N) (u v : list N) : k <= 64 -> same_low k u v ->
  hash_str u mod 2 ^ k = hash_str v mod 2 ^ k.
Proof. exact (hash_low k u v). Qed.

(** The next bit differs exactly if it differs at an odd number of places. *)
Theorem C102_exact (k : N) (u v : list N) : k < 64 -> same_low k u v ->
  if Nat.odd (flips k u v) then agree_to k (hash_str u) (hash_str v)
  else hash_str u mod 2 ^ (k + 1) = hash_str v mod 2 ^ (k + 1).
Proof. exact (hash_exact k u v). Qed.

(** The hash is odd exactly if the number of odd bytes is. *)
Theorem C102_parity (u : list N) :
  N.odd (hash_str u) = Nat.odd (length (filter (fun b => N.odd b = true) u)).
Proof. exact (hash_odd u). Qed.

(** Changing the case of an odd number of letters changes the hash from bit 5 on, ... *)
Theorem C102_case (u v : list N) : case_variants u v ->
  if Nat.odd (case_changes u v) then agree_to 5 (hash_str u) (hash_str v)
  else hash_str u mod 2 ^ 6 = hash_str v mod 2 ^ 6.
Proof.
  intros Huv. destruct (case_low u v Huv) as [Hl <-]. by apply (hash_exact 5 u v).
Qed.

(** ... so that the two spellings collide for exactly 15 multipliers of the 32 bit hashers and
    3 of the 64 bit hasher, the multiples of 2^27 and 2^59. *)
Theorem C102_case_collisions (kind : hasher_kind) (b : N) (u v : list N) :
  case_variants u v -> Nat.odd (case_changes u v) = true ->
  (forall a, collide kind b (hash_str u) (hash_str v) a <-> (2 ^ (hash_bits kind - 5) | a)) /\
  exists l : list N, NoDup l /\ length l = (match kind with MinHasher64V1 => 3 | _ => 15 end)%nat /\
    forall a, a ∈ l <-> multiplier kind a /\ collide kind b (hash_str u) (hash_str v) a.
Proof.
  intros Huv Ho. pose proof (C102_case u v Huv) as Ha. rewrite Ho in Ha. split.
  - intros a. apply (C93_exact kind b _ _ 5 a Ha); by destruct kind.
  - destruct (C93_count kind b _ _ 5 Ha) as (l & Hnd & Hl & Hin); [by destruct kind..|].
    exists l. split; [done|]. split; [|done]. apply Nat2N.inj. rewrite Hl. by destruct kind.
Qed.

(** Whole documents written in other case agree at the positions with such multipliers. *)
Theorem C102_case_documents (draws : N -> nat -> nat -> N) (n : nat) (seed : N) (kind : hasher_kind)
    (us us' : list (list N)) s s' (i : nat) :
  Forall2 case_variants us us' -> (2 ^ (hash_bits kind - 5) | draws seed n i) -> (i < n)%nat ->
  create_signature kind hash_str (new_with_hasher_and_seed draws n seed) us = Some s ->
  create_signature kind hash_str (new_with_hasher_and_seed draws n seed) us' = Some s' -> s !! i = s' !! i.
Proof.
  intros HF. apply (C93_documents draws n seed kind hash_str us us' s s' i 5); [by destruct kind|].
  eapply Forall2_impl; [exact HF|]. intros u v Huv. destruct (case_low u v Huv) as [Hl _].
  by apply (hash_low 5 u v).
Qed.

(** "Cat" and "cat", "CAT" and "Cat". *)
Example C102_example :
  case_variants [67;97;116] [99;97;116] /\ case_changes [67;97;116] [99;97;116] = 1%nat /\
  case_variants [67;65;84] [67;97;116] /\ case_changes [67;65;84] [67;97;116] = 2%nat /\
  hash_str [67;97;116] mod 64 <> hash_str [99;97;116] mod 64 /\
  hash_str [67;97;116] mod 32 = hash_str [99;97;116] mod 32 /\
  hash_str [67;65;84] mod 64 = hash_str [67;97;116] mod 64 /\
  hash_str [67;65;84] mod 128 <> hash_str [67;97;116] mod 128 /\
  (* only the lowest bit of the letters, odd number of odd bytes *)
  N.odd (hash_str [67;97;116]) = false /\ same_low 1 [67;97;116] [1;1;0] /\ flips 1 [67;97;116] [1;1;0] = 1%nat.
Proof.
  split; [constructor; [unfold same_letter, upper_letter; lia|]; repeat constructor|].
  split; [reflexivity|].
  split; [constructor; [by left|]; constructor; [unfold same_letter, upper_letter; lia|];
          constructor; [unfold same_letter, upper_letter; lia|]; constructor|].
  split; [reflexivity|].
  split; [by vm_compute|]. split; [by vm_compute|]. split; [by vm_compute|]. split; [by vm_compute|].
  split; [by vm_compute|]. split; [by repeat constructor|]. reflexivity.
Qed.

(** An even number of changes need not leave more than six bits equal. *)
Theorem C102_even_changes_refuted : exists u v : list N,
  case_variants u v /\ case_changes u v = 2%nat /\ hash_str u mod 2 ^ 7 <> hash_str v mod 2 ^ 7.
Proof.
  exists [67;65;84], [67;97;116].
  split; [constructor; [by left|]; constructor; [unfold same_letter, upper_letter; lia|];
          constructor; [unfold same_letter, upper_letter; lia|]; constructor|].
  split; [reflexivity|]. by vm_compute.
Qed.
Print Assumptions C102_low_bits.
Print Assumptions C102_exact.
Print Assumptions C102_parity.
Print Assumptions C102_case.
Print Assumptions C102_case_collisions.
Print Assumptions C102_case_documents.
Print Assumptions C102_even_changes_refuted.
