(** The low bits of FNV-1a. *)
From stdpp Require Import base list.
From Coq Require Import NArith ZArith Znumtheory Zpow_facts.
From Verif Require Import Base MinHasher SpecMinHash Fnv SpecCollision SpecLowBits.
Local Open Scope N_scope.

Definition cong (k x y : N) : Prop := x mod 2 ^ k = y mod 2 ^ k.

Lemma cong_bits k x y : cong k x y <-> forall i, i < k -> N.testbit x i = N.testbit y i.
Proof.
  unfold cong. split.
  - intros E i Hi. apply (f_equal (fun z => N.testbit z i)) in E.
    by rewrite !N.mod_pow2_bits_low in E by done.
  - intros Hb. apply N.bits_inj. intros i. destruct (N.lt_ge_cases i k) as [Hi|Hi].
    + rewrite !N.mod_pow2_bits_low by done. by apply Hb.
    + by rewrite !N.mod_pow2_bits_high by done.
Qed.

Lemma cong_succ k x y : cong k x y -> (cong (k + 1) x y <-> N.testbit x k = N.testbit y k).
Proof.
  rewrite !cong_bits. intros Hk. split; [intros Hb; apply Hb; lia|].
  intros Hb i Hi. destruct (N.eq_dec i k) as [->|]; [done|]. apply Hk. lia.
Qed.

Lemma cong_Z k x y : cong k x y <-> (2 ^ Z.of_N k | Z.of_N x - Z.of_N y)%Z.
Proof.
  assert (Hp : (0 < 2 ^ Z.of_N k)%Z) by (apply Z.pow_pos_nonneg; lia).
  unfold cong. rewrite <- N2Z.inj_iff, !N2Z.inj_mod, N2Z.inj_pow. change (Z.of_N 2) with 2%Z.
  split.
  - intros E. apply Z.mod_divide; [lia|]. by rewrite Zminus_mod, E, Z.sub_diag, Z.mod_0_l by lia.
  - intros [c Hc]. replace (Z.of_N x) with (Z.of_N y + c * 2 ^ Z.of_N k)%Z by lia.
    apply Z.mod_add. lia.
Qed.

Lemma cong_weaken k x y : cong (k + 1) x y -> cong k x y.
Proof. rewrite !cong_bits. intros Hb i Hi. apply Hb. lia. Qed.

Lemma cong_wrap k z : k <= 64 -> cong k (z mod 2 ^ 64) z.
Proof.
  intros Hk. apply cong_bits. intros i Hi. apply N.mod_pow2_bits_low. lia.
Qed.

Lemma cong_mul k x y (p : N) : N.odd p = true -> cong k (x * p) (y * p) <-> cong k x y.
Proof.
  intros Hp. rewrite !cong_Z, !N2Z.inj_mul, <- Z.mul_sub_distr_r. split.
  - intros Hd. apply (Gauss _ (Z.of_N p)); [by rewrite Z.mul_comm|].
    apply rel_prime_sym, rel_prime_Zpower_r; [lia|].
    apply rel_prime_sym, prime_rel_prime; [apply prime_2|].
    intros [c Hc]. assert (Z.odd (Z.of_N p) = true) as Ho by (by destruct p as [|[]]).
    rewrite Hc, Z.odd_mul, andb_false_r in Ho. done.
  - apply Z.divide_mul_l.
Qed.

Lemma cong_trans k x y z : cong k x y -> cong k y z -> cong k x z.
Proof. unfold cong. congruence. Qed.
Lemma cong_sym k x y : cong k x y -> cong k y x.
Proof. unfold cong. congruence. Qed.

Lemma cong_byte k h h' b b' : k <= 64 ->
  cong k (fnv_byte h b) (fnv_byte h' b') <-> cong k (N.lxor h b) (N.lxor h' b').
Proof.
  intros Hk. unfold fnv_byte, wrapping_mul, u64.
  rewrite <- (cong_mul k (N.lxor h b) (N.lxor h' b') 1099511628211) by done.
  change 18446744073709551616 with (2 ^ 64).
  generalize (N.lxor h b * 1099511628211) as x. generalize (N.lxor h' b' * 1099511628211) as y. intros y x.
  split; intros E.
  - eapply cong_trans; [apply cong_sym, cong_wrap; done|]. eapply cong_trans; [exact E|by apply cong_wrap].
  - eapply cong_trans; [by apply cong_wrap|]. eapply cong_trans; [exact E|by apply cong_sym, cong_wrap].
Qed.

Lemma cong_lxor k h h' b b' : cong k h h' -> cong k b b' -> cong k (N.lxor h b) (N.lxor h' b').
Proof.
  rewrite !cong_bits. intros Hh Hb i Hi. rewrite !N.lxor_spec. by rewrite Hh, Hb.
Qed.

Lemma flips_cons k b u c v :
  Nat.odd (flips k (b :: u) (c :: v)) = xorb (xorb (N.testbit b k) (N.testbit c k)) (Nat.odd (flips k u v)).
Proof.
  unfold flips. cbn [zip]. rewrite filter_cons. cbn [fst snd].
  destruct (decide (N.testbit b k <> N.testbit c k)) as [Hn|Hn]; cbn [length].
  - rewrite Nat.odd_succ, <- Nat.negb_odd.
    by destruct (N.testbit b k), (N.testbit c k), (Nat.odd _).
  - by destruct (N.testbit b k), (N.testbit c k), (Nat.odd _); (done || (exfalso; apply Hn; done)).
Qed.

Lemma write_low k h h' u v : k <= 64 -> cong k h h' -> same_low k u v ->
  cong k (fnv_write h u) (fnv_write h' v).
Proof.
  intros Hk Hh Huv. revert h h' Hh. induction Huv as [|b c u v Hbc Huv IH]; intros h h' Hh; [done|].
  cbn [fnv_write foldl]. apply IH, cong_byte; [done|]. by apply cong_lxor.
Qed.

Lemma byte_bit k h h' b b' : k < 64 -> cong k h h' -> cong k b b' ->
  xorb (N.testbit (fnv_byte h b) k) (N.testbit (fnv_byte h' b') k) =
  xorb (xorb (N.testbit h k) (N.testbit h' k)) (xorb (N.testbit b k) (N.testbit b' k)).
Proof.
  intros Hk Hh Hb.
  assert (Hx : cong k (N.lxor h b) (N.lxor h' b')) by (by apply cong_lxor).
  assert (Hf : cong k (fnv_byte h b) (fnv_byte h' b')) by (apply cong_byte; [lia|done]).
  assert (E : N.testbit (fnv_byte h b) k = N.testbit (fnv_byte h' b') k <->
              N.testbit (N.lxor h b) k = N.testbit (N.lxor h' b') k).
  { rewrite <- (cong_succ k _ _ Hf), <- (cong_succ k _ _ Hx). apply cong_byte. lia. }
  rewrite !N.lxor_spec in E. revert E.
  destruct (N.testbit (fnv_byte h b) k), (N.testbit (fnv_byte h' b') k), (N.testbit h k),
    (N.testbit h' k), (N.testbit b k), (N.testbit b' k); cbn; intros [E1 E2]; try reflexivity;
    first [discriminate (E1 eq_refl)|discriminate (E2 eq_refl)].
Qed.

Lemma write_bit k h h' u v : k < 64 -> cong k h h' -> same_low k u v ->
  xorb (N.testbit (fnv_write h u) k) (N.testbit (fnv_write h' v) k) =
  xorb (xorb (N.testbit h k) (N.testbit h' k)) (Nat.odd (flips k u v)).
Proof.
  intros Hk Hh Huv. revert h h' Hh. induction Huv as [|b c u v Hbc Huv IH]; intros h h' Hh.
  { cbn. by rewrite xorb_false_r. }
  cbn [fnv_write foldl]. rewrite flips_cons.
  change (foldl fnv_byte (fnv_byte h b) u) with (fnv_write (fnv_byte h b) u).
  change (foldl fnv_byte (fnv_byte h' c) v) with (fnv_write (fnv_byte h' c) v).
  rewrite IH, byte_bit by (done || (apply cong_byte; [lia|by apply cong_lxor])).
  by rewrite !xorb_assoc.
Qed.

Lemma hash_low k u v : k <= 64 -> same_low k u v -> cong k (hash_str u) (hash_str v).
Proof.
  intros Hk Huv. unfold hash_str. apply write_low; [done| |by constructor]. by apply write_low.
Qed.

Lemma hash_bit k u v : k < 64 -> same_low k u v ->
  xorb (N.testbit (hash_str u) k) (N.testbit (hash_str v) k) = Nat.odd (flips k u v).
Proof.
  intros Hk Huv. unfold hash_str.
  rewrite write_bit; [|done|apply write_low; [lia|done|done]|by constructor].
  rewrite write_bit by done. rewrite !xorb_nilpotent, xorb_false_l.
  replace (Nat.odd (flips k [255] [255])) with false; [by rewrite xorb_false_r|].
  unfold flips. cbn [zip]. rewrite filter_cons. cbn [fst snd]. by rewrite decide_False by (intros Hn; by apply Hn).
Qed.

Lemma agree_to_bits k x y : agree_to k x y <-> cong k x y /\ ~ cong (k + 1) x y.
Proof.
  assert (Hp : (0 < 2 ^ Z.of_N k)%Z) by (apply Z.pow_pos_nonneg; lia).
  rewrite !cong_Z. replace (Z.of_N (k + 1)) with (Z.succ (Z.of_N k)) by lia. rewrite Z.pow_succ_r by lia.
  unfold agree_to. split.
  - intros (c & Ho & E). split; [exists c; lia|]. intros [d Hd].
    assert (c = 2 * d)%Z by nia. subst c. rewrite Z.odd_mul in Ho. done.
  - intros [[c Hc] Hn]. exists c. split; [|lia]. destruct (Z.odd c) eqn:Ho; [done|]. exfalso. apply Hn.
    assert (Z.even c = true) as He by (by rewrite <- Z.negb_odd, Ho). apply Z.even_spec in He as [d ->].
    exists d. lia.
Qed.

Lemma hash_exact k u v : k < 64 -> same_low k u v ->
  if Nat.odd (flips k u v) then agree_to k (hash_str u) (hash_str v)
  else hash_str u mod 2 ^ (k + 1) = hash_str v mod 2 ^ (k + 1).
Proof.
  intros Hk Huv. pose proof (hash_low k u v ltac:(lia) Huv) as Hl. pose proof (hash_bit k u v Hk Huv) as Hb.
  destruct (Nat.odd (flips k u v)).
  - apply agree_to_bits. split; [done|]. rewrite (cong_succ _ _ _ Hl). intros E. rewrite E, xorb_nilpotent in Hb. done.
  - apply (cong_succ _ _ _ Hl). by apply xorb_eq.
Qed.

(** Parity. *)
Lemma byte_odd h b : N.odd (fnv_byte h b) = xorb (N.odd h) (N.odd b).
Proof.
  rewrite <- !N.bit0_odd. unfold fnv_byte, wrapping_mul, u64. change 18446744073709551616 with (2 ^ 64).
  rewrite N.mod_pow2_bits_low by done. rewrite !N.bit0_odd, N.odd_mul.
  change (N.odd 1099511628211) with true. rewrite andb_true_r, <- !N.bit0_odd. apply N.lxor_spec.
Qed.

Lemma write_odd h u : N.odd (fnv_write h u) = xorb (N.odd h) (Nat.odd (length (filter (fun b => N.odd b = true) u))).
Proof.
  revert h. induction u as [|b u IH]; intros h; [by rewrite xorb_false_r|].
  cbn [fnv_write foldl]. change (foldl fnv_byte (fnv_byte h b) u) with (fnv_write (fnv_byte h b) u).
  rewrite IH, byte_odd, filter_cons. destruct (decide (N.odd b = true)) as [Hb|Hb].
  - cbn [length]. rewrite Nat.odd_succ, <- Nat.negb_odd, Hb. by destruct (N.odd h), (Nat.odd _).
  - apply not_true_is_false in Hb. rewrite Hb. by rewrite xorb_false_r.
Qed.

Lemma hash_odd u : N.odd (hash_str u) = Nat.odd (length (filter (fun b => N.odd b = true) u)).
Proof.
  unfold hash_str. rewrite (write_odd _ [255]), write_odd. change (N.odd fnv_default) with true.
  change (Nat.odd (length (filter (fun b => N.odd b = true) [255]))) with true.
  by destruct (Nat.odd _).
Qed.

(** Letters. *)
Lemma letter_low b c : same_letter b c -> b mod 2 ^ 5 = c mod 2 ^ 5.
Proof.
  intros [->|[[_ ->]|[_ ->]]]; [done|..]; change (2 ^ 5) with 32.
  - symmetry. rewrite <- (N.mul_1_l 32) at 1. by apply N.mod_add.
  - rewrite <- (N.mul_1_l 32) at 1. by apply N.mod_add.
Qed.

Lemma upper_bit b : upper_letter b -> N.testbit b 5 = false /\ N.testbit (b + 32) 5 = true.
Proof.
  intros [H1 H2].
  assert (b mod 32 = b - 64) as Em.
  { symmetry. apply (N.mod_unique b 32 2); lia. }
  assert (Hb : forall c, c < 128 -> N.testbit c 5 = N.odd (c / 32)).
  { intros c _. rewrite <- N.bit0_odd. change 32 with (2 ^ 5). by rewrite N.div_pow2_bits. }
  rewrite !Hb by lia. replace (b / 32) with 2 by (apply (N.div_unique b 32 2 (b - 64)); lia).
  replace ((b + 32) / 32) with 3 by (apply (N.div_unique (b + 32) 32 3 (b - 64)); lia). done.
Qed.

Lemma letter_bit b c : same_letter b c -> (N.testbit b 5 <> N.testbit c 5 <-> b <> c).
Proof.
  intros [->|[[Hb ->]|[Hc ->]]]; [done|..].
  - destruct (upper_bit b Hb) as [-> ->]. split; [intros _; lia|done].
  - destruct (upper_bit c Hc) as [-> ->]. split; [intros _; lia|done].
Qed.

Lemma case_low u v : case_variants u v -> same_low 5 u v /\ flips 5 u v = case_changes u v.
Proof.
  intros Huv. induction Huv as [|b c u v Hbc Huv [IH1 IH2]]; [by split; [constructor|]|]. split.
  - constructor; [by apply letter_low|done].
  - unfold flips, case_changes in *. cbn [zip]. rewrite !filter_cons. cbn [fst snd].
    pose proof (letter_bit b c Hbc) as Hl.
    destruct (decide (N.testbit b 5 <> N.testbit c 5)), (decide (b <> c)); try tauto; cbn [length]; by rewrite IH2.
Qed.
