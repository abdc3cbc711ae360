(** Property theorem C62: how the values of a signature position are distributed over the token
    hashes. *)
From stdpp Require Import base list.
From Coq Require Import NArith ZArith Lia.
From Verif Require Import Base Float MinHasher SpecMinHash MinHasherFacts AffineFacts.
Local Open Scope N_scope.

Lemma affine_of k a b h : k = MinHasher32 \/ k = MinHasher64V1 ->
  affine k a b h = ((h * a + b) mod 2 ^ hash_bits k) mod modulus k.
Proof. by intros [-> | ->]. Qed.

Lemma count_share k v : v < modulus k -> AffineFacts.count (hash_bits k) (modulus k) v = fair_share k v.
Proof.
  intros Hv. unfold AffineFacts.count, fair_share, hash_bits, modulus in *.
  destruct k; cbv beta iota in *.
  4: change (2 ^ 64) with 18446744073709551616; destruct (N.ltb_spec v 8);
     [rewrite <- (N.div_unique _ _ 9 (7 - v))|rewrite <- (N.div_unique _ _ 8 (2305843009213693951 + 7 - v))]; lia.
  all: change (2 ^ 32) with 4294967296; destruct (N.ltb_spec v 2);
     [rewrite <- (N.div_unique _ _ 3 (1 - v))|rewrite <- (N.div_unique _ _ 2 (2147483647 + 1 - v))]; lia.
Qed.

Section Affine.
Context (draws : N -> nat -> nat -> N) (n : nat) (seed : N) (i : nat) (Hi : (i < n)%nat).
Notation sig k hash := (create_signature k hash (new_with_hasher_and_seed draws n seed)).
Notation a := (draws seed n i).

Lemma single {U} k (hash : U -> N) u : k = MinHasher32 \/ k = MinHasher64V1 ->
  exists s, sig k hash [u] = Some s /\
    s !! i = Some (((hash u * a + draws seed n (n + i)%nat) mod 2 ^ hash_bits k) mod modulus k).
Proof.
  intros Hk. destruct (signature_shape hash draws n seed k [u]) as (s & Hs & Hl & _).
  exists s. split; [done|].
  destruct (agree_if_shared hash draws n seed k [u] [u] s s i a (draws seed n (n + i)%nat) u) as [_ E]; try done.
  - simpl. by rewrite list_lookup_fmap, lookup_seq_lt.
  - simpl. by rewrite list_lookup_fmap, lookup_seq_lt.
  - by left.
  - by left.
  - intros v Hv. cbn in Hv. set_solver.
  - rewrite E, affine_of by done. f_equal. apply N.mod_small.
    destruct Hk as [-> | ->]; (eapply N.lt_trans; [apply N.mod_lt|]); done.
Qed.

(** With an odd multiplier every value below the modulus is taken by its fair share of the token
    hashes. *)
Theorem C62_fair (k : hasher_kind) (v : N) : k = MinHasher32 \/ k = MinHasher64V1 ->
  N.odd a = true -> v < modulus k ->
  exists l : list N, NoDup l /\ length l = fair_share k v /\
    forall h, h ∈ l <-> h < 2 ^ hash_bits k /\ exists s, sig k (fun h : N => h) [h] = Some s /\ s !! i = Some v.
Proof.
  intros Hk Ha Hv.
  destruct (preimages (hash_bits k) (modulus k) a (draws seed n (n + i)%nat)) with (v := v)
    as (l & Hnd & Hl & Hin); [by destruct k|done|done|].
  exists l. split; [done|]. split; [by rewrite <- count_share|]. intros h. rewrite Hin.
  destruct (single k (fun h : N => h) h Hk) as (s & Hs & Hsi). split; intros [Hh H]; (split; [done|]).
  - exists s. split; [done|]. by rewrite Hsi, H.
  - destruct H as (s' & Hs' & Hsi'). rewrite Hs in Hs'. injection Hs' as <-. rewrite Hsi in Hsi'. by injection Hsi'.
Qed.

(** With an even multiplier tokens whose hashes differ in the top bit always collide. *)
Theorem C62_even {U} (k : hasher_kind) (hash : U -> N) (u u' : U) s s' :
  k = MinHasher32 \/ k = MinHasher64V1 -> N.even a = true -> hash u' = hash u + 2 ^ (hash_bits k - 1) ->
  sig k hash [u] = Some s -> sig k hash [u'] = Some s' -> s !! i = s' !! i.
Proof.
  intros Hk Ha Hu Hs Hs'. destruct (single k hash u Hk) as (t & Ht & Hti). destruct (single k hash u' Hk) as (t' & Ht' & Hti').
  rewrite Hs in Ht. injection Ht as <-. rewrite Hs' in Ht'. injection Ht' as <-. rewrite Hti, Hti', Hu.
  rewrite even_collide; [done|by destruct k|done].
Qed.
End Affine.

(** Coefficients 5, 4 and additive terms 7, 1. *)
Definition c62_draws (seed : N) (n j : nat) : N := default 0 ([5; 4; 7; 1] !! j).
Example C62_example :
  N.odd (c62_draws 3 2 0) = true /\ N.even (c62_draws 3 2 1) = true /\
  create_signature MinHasher32 (fun h : N => h) (new_with_hasher_and_seed c62_draws 2 3) [10] = Some [57; 41] /\
  create_signature MinHasher32 (fun h : N => h) (new_with_hasher_and_seed c62_draws 2 3) [2147483658] = Some [58; 41].
Proof. vm_compute. split_and!; reflexivity. Qed.
Print Assumptions C62_fair.
Print Assumptions C62_even.

(** The hashes of a position are not a universal family: there are two token hashes that collide
    for every second multiplier, instead of for one in 2^31. *)
Theorem C62_universal_refuted : exists h h' : N, h ≠ h' /\ h < 2 ^ 32 /\ h' < 2 ^ 32 /\
  forall (draws : N -> nat -> nat -> N) n seed i s s', (i < n)%nat -> N.even (draws seed n i) = true ->
  create_signature MinHasher32 (fun h : N => h) (new_with_hasher_and_seed draws n seed) [h] = Some s ->
  create_signature MinHasher32 (fun h : N => h) (new_with_hasher_and_seed draws n seed) [h'] = Some s' ->
  s !! i = s' !! i.
Proof.
  exists 0, (2 ^ 31). split; [done|]. split; [done|]. split; [done|].
  intros draws n seed i s s' Hi Ha Hs Hs'.
  apply (C62_even draws n seed i Hi MinHasher32 (fun h : N => h) 0 (2 ^ 31) s s'); try done. by left.
Qed.
Print Assumptions C62_universal_refuted.
