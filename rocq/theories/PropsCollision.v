(** Property theorem C93: for how many multipliers two token hashes collide. *)
From stdpp Require Import base list list_numbers.
From Coq Require Import NArith ZArith Lia.
From Verif Require Import Base Float MinHasher SpecMinHash SpecCollision MinHasherFacts PropsAffine CollisionFacts.
Local Open Scope N_scope.

Lemma affine_Z kind a b h : Z.of_N (affine kind a b h) =
  (((Z.of_N h * Z.of_N a + Z.of_N b) mod 2 ^ Z.of_N (hash_bits kind)) mod Z.of_N (modulus kind))%Z.
Proof.
  assert (E : affine kind a b h = ((h * a + b) mod 2 ^ hash_bits kind) mod modulus kind) by (by destruct kind).
  rewrite E, !N2Z.inj_mod, N2Z.inj_add, N2Z.inj_mul, N2Z.inj_pow by (by destruct kind). done.
Qed.
Lemma modulus_Z kind : Z.of_N (modulus kind) = (2 ^ (Z.of_N (hash_bits kind) - Z.of_N (spare_bits kind)) - 1)%Z.
Proof. by destruct kind. Qed.
Lemma fits_Z kind : ((2 ^ Z.of_N (hash_bits kind) - 1) / Z.of_N (modulus kind))%Z = Z.of_N (fits kind).
Proof. by destruct kind. Qed.
Lemma spare_fits kind k : spare_bits kind < k -> (Z.of_N (fits kind) < 2 ^ Z.of_N k)%Z.
Proof.
  intros H. assert (2 ^ Z.of_N (spare_bits kind + 1) <= 2 ^ Z.of_N k)%Z by (apply Z.pow_le_mono_r; lia).
  eapply Z.lt_le_trans; [|done]. by destruct kind.
Qed.
Lemma collide_Z kind b x y a : collide kind b x y a <-> Z.of_N (affine kind a b x) = Z.of_N (affine kind a b y).
Proof. unfold collide. split; [by intros ->|apply N2Z.inj]. Qed.
Lemma spare_pos kind : 0 < spare_bits kind < hash_bits kind.
Proof. by destruct kind. Qed.

Lemma divide_Z d a : (2 ^ d | a)%N <-> (2 ^ Z.of_N d | Z.of_N a)%Z.
Proof.
  change 2%Z with (Z.of_N 2). rewrite <- N2Z.inj_pow. split; intros [z Hz].
  - exists (Z.of_N z). rewrite Hz. lia.
  - pose proof (N.pow_nonzero 2 d ltac:(lia)). exists (Z.to_N z). generalize dependent (2 ^ d). intros m Hm H.
    assert (0 <= z)%Z by nia. lia.
Qed.

Section Collision.
Context (kind : hasher_kind) (b x y k : N) (Hxy : agree_to k x y) (Hk : k < hash_bits kind).

Lemma exact_case a : spare_bits kind < k -> collide kind b x y a <-> (2 ^ (hash_bits kind - k) | a).
Proof.
  intros Hs. destruct Hxy as (c & Hc & E). rewrite collide_Z, !affine_Z, divide_Z, modulus_Z, N2Z.inj_sub by lia.
  pose proof (spare_pos kind). apply (exact_collision _ _ _ c); try lia; try done.
  rewrite <- modulus_Z, fits_Z. by apply spare_fits.
Qed.

Lemma few_case : k <= spare_bits kind ->
  exists l : list N, length l = N.to_nat (2 * fits kind) /\ forall a, multiplier kind a -> collide kind b x y a -> a ∈ l.
Proof.
  intros Hs. destruct Hxy as (c & Hc & E). pose proof (spare_pos kind).
  destruct (few_collisions (Z.of_N (hash_bits kind)) (Z.of_N (hash_bits kind) - Z.of_N (spare_bits kind)) (Z.of_N k) c
    (Z.of_N x) (Z.of_N y) (Z.of_N b)) as (l & Hl & Hin); try lia; try done.
  rewrite <- modulus_Z in Hl, Hin. rewrite fits_Z in Hl.
  exists (Z.to_N <$> l). split; [rewrite fmap_length, Hl; lia|].
  intros a [Ha0 Ha] Hc'. apply elem_of_list_fmap. exists (Z.of_N a). split; [lia|].
  apply Hin; [lia|]. apply collide_Z in Hc'. by rewrite !affine_Z in Hc'.
Qed.
End Collision.

Lemma multiples W s k : 0 < s -> s < k -> k < W ->
  exists l : list N, NoDup l /\ N.of_nat (length l) = 2 ^ (k - s) - 1 /\
    forall a, a ∈ l <-> (0 < a /\ a < 2 ^ (W - s) - 1) /\ (2 ^ (W - k) | a).
Proof.
  intros H0 Hs Hk. set (d := 2 ^ (W - k)). set (q := 2 ^ (k - s)).
  assert (E : 2 ^ (W - s) = q * d) by (unfold q, d; rewrite <- N.pow_add_r; f_equal; lia).
  assert (Hd : 2 <= d). { change 2 with (2 ^ 1) at 1. apply N.pow_le_mono_r; lia. }
  assert (Hq : 1 <= q). { change 1 with (2 ^ 0) at 1. apply N.pow_le_mono_r; lia. }
  rewrite E. clearbody d q. exists ((fun j => Z.to_N j * d) <$> seqZ 1 (Z.of_N q - 1)). split; [|split].
  - apply NoDup_fmap_2_strong; [|apply NoDup_seqZ]. intros i j Hi Hj Hij.
    apply elem_of_seqZ in Hi, Hj. apply N.mul_cancel_r in Hij; lia.
  - rewrite fmap_length, seqZ_length. lia.
  - intros a. rewrite elem_of_list_fmap. split.
    + intros (j & -> & Hj). apply elem_of_seqZ in Hj. split; [|by exists (Z.to_N j)].
      assert (1 <= Z.to_N j <= q - 1) by lia. nia.
    + intros [[Ha1 Ha2] [z Hz]]. exists (Z.of_N z). rewrite N2Z.id. split; [done|]. apply elem_of_seqZ. nia.
Qed.

(** ** C93 *)
(** At a position of two one-token documents equality is collision under the drawn coefficients. *)
Theorem C93_position {U} (draws : N -> nat -> nat -> N) (n : nat) (seed : N) (kind : hasher_kind) (hash : U -> N)
    (u u' : U) s s' (i : nat) : kind = MinHasher32 \/ kind = MinHasher64V1 -> (i < n)%nat ->
  create_signature kind hash (new_with_hasher_and_seed draws n seed) [u] = Some s ->
  create_signature kind hash (new_with_hasher_and_seed draws n seed) [u'] = Some s' ->
  (s !! i = s' !! i <-> collide kind (draws seed n (n + i)%nat) (hash u) (hash u') (draws seed n i)).
Proof.
  intros Hkind Hi Hs Hs'. destruct (single draws n seed i Hi kind hash u Hkind) as (t & Ht & Hti).
  destruct (single draws n seed i Hi kind hash u' Hkind) as (t' & Ht' & Hti').
  rewrite Hs in Ht. injection Ht as <-. rewrite Hs' in Ht'. injection Ht' as <-. rewrite Hti, Hti'.
  unfold collide. rewrite !affine_of by done. split; [by intros [= ->]|by intros ->].
Qed.

(** Hashes agreeing in exactly their lowest [k] bits, for [k] above the spare bits, collide for
    exactly the multipliers that are divisible by the rest of the word, whatever the increment. *)
Theorem C93_exact (kind : hasher_kind) (b x y k a : N) : agree_to k x y -> k < hash_bits kind ->
  spare_bits kind < k -> (collide kind b x y a <-> (2 ^ (hash_bits kind - k) | a)).
Proof. intros Hxy Hk Hs. exact (exact_case kind b x y k Hxy Hk a Hs). Qed.

(** ... which are 2^(k - spare) - 1 of the multipliers drawn from. *)
Theorem C93_count (kind : hasher_kind) (b x y k : N) : agree_to k x y -> k < hash_bits kind ->
  spare_bits kind < k ->
  exists l : list N, NoDup l /\ N.of_nat (length l) = 2 ^ (k - spare_bits kind) - 1 /\
    forall a, a ∈ l <-> multiplier kind a /\ collide kind b x y a.
Proof.
  intros Hxy Hk Hs. destruct (multiples (hash_bits kind) (spare_bits kind) k) as (l & Hnd & Hl & Hin); try done.
  { by destruct kind. }
  exists l. split; [done|]. split; [done|]. intros a. rewrite Hin, (exact_case kind b x y k Hxy Hk a Hs).
  unfold multiplier. by replace (2 ^ (hash_bits kind - spare_bits kind) - 1) with (modulus kind) by (by destruct kind).
Qed.

(** With fewer equal low bits at most 4 (32 bits) or 16 (64 bits) multipliers collide. *)
Theorem C93_few (kind : hasher_kind) (b x y k : N) : agree_to k x y -> k <= spare_bits kind ->
  exists l : list N, length l = N.to_nat (2 * fits kind) /\
    forall a, multiplier kind a -> collide kind b x y a -> a ∈ l.
Proof.
  intros Hxy Hs. apply (few_case kind b x y k Hxy); [|done]. pose proof (spare_pos kind). lia.
Qed.

(** Whole documents, any kind: if the tokens' hashes are congruent modulo 2^k one by one, the
    signatures agree at every position whose multiplier is divisible by the rest of the word. *)
Theorem C93_documents {U} (draws : N -> nat -> nat -> N) (n : nat) (seed : N) (kind : hasher_kind) (hash : U -> N)
    (us us' : list U) s s' (i : nat) (k : N) : k <= hash_bits kind ->
  Forall2 (fun u u' => hash u mod 2 ^ k = hash u' mod 2 ^ k) us us' ->
  (2 ^ (hash_bits kind - k) | draws seed n i) -> (i < n)%nat ->
  create_signature kind hash (new_with_hasher_and_seed draws n seed) us = Some s ->
  create_signature kind hash (new_with_hasher_and_seed draws n seed) us' = Some s' -> s !! i = s' !! i.
Proof.
  intros Hk HF Hd Hi Hs Hs'. set (b := draws seed n (n + i)%nat).
  assert (E : forall u u', hash u mod 2 ^ k = hash u' mod 2 ^ k ->
    affine kind (draws seed n i) b (hash u) = affine kind (draws seed n i) b (hash u')).
  { intros u u' Hu. apply N2Z.inj. rewrite !affine_Z. f_equal. apply mod_equal; [apply pow_nat_pos; lia|].
    apply divide_Z in Hd as [z Hz]. rewrite N2Z.inj_sub in Hz by done.
    apply (f_equal Z.of_N) in Hu. rewrite !N2Z.inj_mod, !N2Z.inj_pow in Hu by (apply N.pow_nonzero; lia).
    change (Z.of_N 2) with 2%Z in Hu.
    pose proof (pow_nat_pos (Z.of_N k) ltac:(lia)) as Hpos.
    pose proof (Z.div_mod (Z.of_N (hash u)) (2 ^ Z.of_N k) ltac:(lia)) as D1.
    pose proof (Z.div_mod (Z.of_N (hash u')) (2 ^ Z.of_N k) ltac:(lia)) as D2.
    rewrite Hu in D1.
    exists ((Z.of_N (hash u) / 2 ^ Z.of_N k - Z.of_N (hash u') / 2 ^ Z.of_N k) * z)%Z.
    rewrite Hz.
    replace (2 ^ Z.of_N (hash_bits kind))%Z with (2 ^ Z.of_N k * 2 ^ (Z.of_N (hash_bits kind) - Z.of_N k))%Z
      by (rewrite <- Z.pow_add_r by lia; f_equal; lia).
    set (q := (Z.of_N (hash u) / 2 ^ Z.of_N k)%Z) in *. set (q' := (Z.of_N (hash u') / 2 ^ Z.of_N k)%Z) in *.
    assert (D : (Z.of_N (hash u) - Z.of_N (hash u') = 2 ^ Z.of_N k * q - 2 ^ Z.of_N k * q')%Z) by lia.
    transitivity ((Z.of_N (hash u) - Z.of_N (hash u')) * (z * 2 ^ (Z.of_N (hash_bits kind) - Z.of_N k)))%Z; [ring|].
    rewrite D. ring. }
  assert (EL : (fun u => affine kind (draws seed n i) b (hash u)) <$> us =
               (fun u => affine kind (draws seed n i) b (hash u)) <$> us').
  { clear -HF E. induction HF as [|u u' us us' Hu _ IH]; [done|]. rewrite !fmap_cons, IH. f_equal. by apply E. }
  destruct (decide (us = [])) as [->|Hne].
  { inversion HF. subst us'. congruence. }
  assert (Hne' : us' ≠ []) by (intros ->; inversion HF; done).
  destruct (signature_shape hash draws n seed kind us) as (t & Ht & Hl & _). rewrite Hs in Ht. injection Ht as <-.
  destruct (signature_shape hash draws n seed kind us') as (t & Ht & Hl' & _). rewrite Hs' in Ht. injection Ht as <-.
  destruct (lookup_lt_is_Some_2 s i) as [v Hv]; [lia|]. destruct (lookup_lt_is_Some_2 s' i) as [v' Hv']; [lia|].
  assert (Ha : coef_a (new_with_hasher_and_seed draws n seed) !! i = Some (draws seed n i)).
  { simpl. by rewrite list_lookup_fmap, lookup_seq_lt. }
  assert (Hb : coef_b (new_with_hasher_and_seed draws n seed) !! i = Some b).
  { simpl. by rewrite list_lookup_fmap, lookup_seq_lt. }
  destruct (lookup_least hash kind _ us s i _ _ v (new_a draws n seed) (new_b draws n seed) Hne Hs Ha Hb Hv) as (w & [Hw1 Hw2] & ->).
  destruct (lookup_least hash kind _ us' s' i _ _ v' (new_a draws n seed) (new_b draws n seed) Hne' Hs' Ha Hb Hv') as (w' & [Hw1' Hw2'] & ->).
  rewrite EL in Hw1, Hw2. rewrite Hv, Hv'. f_equal. f_equal.
  apply N.le_antisymm; [by apply Hw2|by apply Hw2'].
Qed.

(** 40 and 8 agree in exactly five low bits: the multipliers are the multiples of 2^27. The
    second pair agrees in no low bit and collides for multiplier 2. *)
Example C93_example : agree_to 5 40 8 /\ 5 < hash_bits MinHasher32 /\ spare_bits MinHasher32 < 5 /\
  collide MinHasher32 7 40 8 (3 * 2 ^ 27) /\ ~ collide MinHasher32 7 40 8 (2 ^ 26) /\
  agree_to 0 (2 ^ 31) (2 ^ 31 - 1) /\ multiplier MinHasher32 2 /\
  collide MinHasher32 0 (2 ^ 31) (2 ^ 31 - 1) 2.
Proof.
  split; [exists 1%Z; done|]. split; [done|]. split; [done|]. split; [vm_compute; reflexivity|].
  split; [vm_compute; discriminate|]. split; [exists 1%Z; done|]. split; [split; done|]. vm_compute. reflexivity.
Qed.

(** The chance of a collision is not that of a universal family: hashes that differ in the top bit
    only collide for half of the 2^31 - 2 multipliers. *)
Theorem C93_universal_refuted : exists x y : N, x <> y /\ x < 2 ^ 32 /\ y < 2 ^ 32 /\ forall b,
  exists l : list N, NoDup l /\ 2 * N.of_nat (length l) = modulus MinHasher32 - 1 /\
    forall a, a ∈ l -> multiplier MinHasher32 a /\ collide MinHasher32 b x y a.
Proof.
  exists (2 ^ 31), 0. split; [done|]. split; [done|]. split; [done|]. intros b.
  destruct (C93_count MinHasher32 b (2 ^ 31) 0 31) as (l & Hnd & Hl & Hin); [by exists 1%Z|done|done|].
  exists l. split; [done|]. split; [by rewrite Hl|]. intros a. by apply Hin.
Qed.
Print Assumptions C93_position.
Print Assumptions C93_exact.
Print Assumptions C93_count.
Print Assumptions C93_few.
Print Assumptions C93_documents.
Print Assumptions C93_universal_refuted.
