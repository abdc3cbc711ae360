(** Lemmas: for which multipliers two token hashes get the same value at a position. *)
From stdpp Require Import base list list_numbers.
From Coq Require Import NArith ZArith Znumtheory Lia.
Local Open Scope Z_scope.

Lemma pow_nat_pos k : 0 <= k -> 0 < 2 ^ k.
Proof. intros. apply Z.pow_pos_nonneg; lia. Qed.

(** Gauss: an odd factor does not matter for powers of two. *)
Lemma odd_coprime k c : 0 <= k -> Z.odd c = true -> rel_prime (2 ^ k) c.
Proof.
  intros Hk Hc. revert k Hk. apply natlike_ind.
  - apply rel_prime_1.
  - intros k Hk IH. rewrite Z.pow_succ_r by done. apply rel_prime_sym, rel_prime_mult; [|by apply rel_prime_sym].
    apply rel_prime_sym, prime_rel_prime; [apply prime_2|]. intros [z Hz].
    apply Z.odd_spec in Hc as [y Hy]. lia.
Qed.
Lemma divide_odd k c a : 0 <= k -> Z.odd c = true -> (2 ^ k | a * c) <-> (2 ^ k | a).
Proof.
  intros Hk Hc. split; [|apply Z.divide_mul_l]. intros H. rewrite Z.mul_comm in H.
  apply (Gauss _ c a H). by apply odd_coprime.
Qed.

Lemma mod_equal m a b : 0 < m -> (m | a - b) -> a mod m = b mod m.
Proof. intros Hm [z Hz]. replace a with (b + z * m) by lia. apply Z.mod_add. lia. Qed.

Section Collision.
Context (W p k c x y b : Z) (Hp : 0 < p) (HW : p < W) (Hk : 0 <= k < W) (Hc : Z.odd c = true)
        (Hxy : x - y = 2 ^ k * c).
Notation M := (2 ^ W).
Notation P := (2 ^ p - 1).
Notation Q := ((M - 1) / P).
Notation u a := ((x * a + b) mod M).
Notation v a := ((y * a + b) mod M).

Lemma M_split : M = 2 ^ k * 2 ^ (W - k).
Proof. rewrite <- Z.pow_add_r by lia. f_equal. lia. Qed.
Lemma P_bound : 0 < P < M.
Proof.
  assert (2 ^ 1 <= 2 ^ p) by (apply Z.pow_le_mono_r; lia). assert (2 ^ p < M) by (apply Z.pow_lt_mono_r; lia).
  change (2 ^ 1) with 2 in *. lia.
Qed.
Lemma P_odd : Z.odd P = true.
Proof.
  replace p with (Z.succ (p - 1)) by lia. rewrite Z.pow_succ_r by lia. rewrite Z.odd_sub, Z.odd_mul. done.
Qed.

Lemma difference a : (M | u a - v a - a * (2 ^ k * c)).
Proof.
  pose proof (pow_nat_pos W ltac:(lia)) as HM.
  exists (((y * a + b) / M) - ((x * a + b) / M)).
  pose proof (Z.div_mod (x * a + b) M ltac:(lia)). pose proof (Z.div_mod (y * a + b) M ltac:(lia)).
  assert (E : x * a = y * a + a * (2 ^ k * c)) by (rewrite <- Hxy; ring). lia.
Qed.

(** The wrapped values are the same iff the multiplier is divisible by the missing power. *)
Lemma same_wrapped a : u a = v a <-> (2 ^ (W - k) | a).
Proof.
  pose proof (pow_nat_pos W ltac:(lia)) as HM. pose proof (pow_nat_pos k ltac:(lia)) as HK.
  pose proof (difference a) as Hd. rewrite <- (divide_odd (W - k) c a) by (done || lia). split.
  - intros E. rewrite E, Z.sub_diag, Z.sub_0_l in Hd. apply Z.divide_opp_r in Hd. rewrite Z.opp_involutive, M_split in Hd.
    apply (Z.mul_divide_cancel_l _ _ (2 ^ k)); [lia|]. replace (2 ^ k * (a * c)) with (a * (2 ^ k * c)) by ring. exact Hd.
  - intros [z Hz]. assert (Ha : (M | a * (2 ^ k * c))).
    { exists z. rewrite M_split. replace (a * (2 ^ k * c)) with (2 ^ k * (a * c)) by ring. rewrite Hz. ring. }
    assert (Huv : (M | u a - v a)).
    { replace (u a - v a) with ((u a - v a - a * (2 ^ k * c)) + a * (2 ^ k * c)) by ring. by apply Z.divide_add_r. }
    pose proof (Z.mod_pos_bound (x * a + b) M HM). pose proof (Z.mod_pos_bound (y * a + b) M HM).
    destruct Huv as [w Hw]. destruct (Z.eq_dec w 0) as [->|Hw0]; [lia|]. exfalso.
    assert (w >= 1 \/ w <= -1) by lia. nia.
Qed.

(** Other collisions come from a multiple of the modulus between the wrapped values. *)
Lemma other_collision a : u a mod P = v a mod P -> u a <> v a ->
  exists i, i <> 0 /\ - Q <= i <= Q /\ (M | a * (2 ^ k * c) - i * P) /\ (2 ^ k | i).
Proof.
  pose proof (pow_nat_pos W ltac:(lia)) as HM. pose proof P_bound as HP. intros E Hne.
  pose proof (Z.mod_pos_bound (x * a + b) M HM) as Bu. pose proof (Z.mod_pos_bound (y * a + b) M HM) as Bv.
  pose proof (difference a) as Hd.
  generalize dependent (u a). generalize dependent (v a). intros v0 Bv u0 E Hne Bu Hd.
  pose proof (Z.div_mod u0 P ltac:(lia)) as Du. pose proof (Z.div_mod v0 P ltac:(lia)) as Dv.
  set (i := u0 / P - v0 / P).
  assert (Ei : u0 - v0 = i * P) by (unfold i; rewrite E in Du; lia).
  assert (Hi0 : i <> 0) by (intros H0; rewrite H0 in Ei; lia).
  assert (Hdi : (M | a * (2 ^ k * c) - i * P)).
  { rewrite <- Ei. replace (a * (2 ^ k * c) - (u0 - v0)) with (- (u0 - v0 - a * (2 ^ k * c))) by ring.
    by apply Z.divide_opp_r. }
  exists i. split; [done|]. split; [|split; [done|]].
  - assert (i <= Q) by (apply Z.div_le_lower_bound; lia).
    assert (- i <= Q) by (apply Z.div_le_lower_bound; lia). lia.
  - apply (divide_odd k P i); [lia|apply P_odd|].
    replace (i * P) with (a * (2 ^ k * c) - (a * (2 ^ k * c) - i * P)) by ring.
    apply Z.divide_sub_r; [exists (a * c); ring|].
    etransitivity; [|exact Hdi]. exists (2 ^ (W - k)). rewrite M_split. ring.
Qed.

(** For differences divisible by more than Q the first kind is the only one. *)
Lemma exact_collision a : Q < 2 ^ k -> u a mod P = v a mod P <-> (2 ^ (W - k) | a).
Proof.
  intros HQ. rewrite <- same_wrapped. split; [|by intros ->]. intros E.
  destruct (Z.eq_dec (u a) (v a)) as [|Hne]; [done|]. exfalso.
  destruct (other_collision a E Hne) as (i & Hi & Hb & _ & Hd).
  assert (2 ^ k <= Z.abs i) by (apply Z.divide_pos_le; [lia|by apply Z.divide_abs_r]). lia.
Qed.

(** For the others at most 2 Q multipliers can collide. *)
Lemma few_collisions : k <= W - p ->
  exists l : list Z, length l = Z.to_nat (2 * Q) /\
    forall a, 0 < a < P -> u a mod P = v a mod P -> a ∈ l.
Proof.
  intros Hkp. pose proof P_bound as HP. pose proof (pow_nat_pos (W - k) ltac:(lia)) as HR.
  pose proof (pow_nat_pos k ltac:(lia)) as HK.
  assert (HPR : P < 2 ^ (W - k)).
  { assert (2 ^ p <= 2 ^ (W - k)) by (apply Z.pow_le_mono_r; lia). lia. }
  destruct (rel_prime_bezout _ _ (odd_coprime (W - k) c ltac:(lia) Hc)) as [s t Hst].
  set (f := fun i => (i / 2 ^ k * P * t) mod 2 ^ (W - k)).
  exists (f <$> (seqZ 1 Q ++ seqZ (- Q) Q)). split.
  { rewrite fmap_length, app_length, !seqZ_length. assert (0 <= Q) by (apply Z.div_pos; lia). lia. }
  intros a Ha E. destruct (Z.eq_dec (u a) (v a)) as [Heq|Hne].
  - exfalso. apply same_wrapped in Heq. apply Z.divide_pos_le in Heq; lia.
  - destruct (other_collision a E Hne) as (i & Hi & Hb & Hd & Hki).
    apply elem_of_list_fmap. exists i. split.
    + unfold f. destruct Hki as [j ->]. rewrite Z.div_mul by lia.
      rewrite <- (Z.mod_small a (2 ^ (W - k))) at 1 by lia.
      assert (Hac : (2 ^ (W - k) | a * c - j * P)).
      { apply (Z.mul_divide_cancel_l _ _ (2 ^ k)); [lia|]. rewrite <- M_split.
        by replace (2 ^ k * (a * c - j * P)) with (a * (2 ^ k * c) - j * 2 ^ k * P) by ring. }
      apply mod_equal; [lia|].
      destruct Hac as [z Hz]. exists (s * a + z * t).
      replace a with (a * (s * 2 ^ (W - k) + t * c)) at 1 by (rewrite Hst; ring).
      replace (a * (s * 2 ^ (W - k) + t * c) - j * P * t) with (s * a * 2 ^ (W - k) + (a * c - j * P) * t) by ring.
      rewrite Hz. ring.
    + apply elem_of_app. rewrite !elem_of_seqZ. lia.
Qed.
End Collision.
