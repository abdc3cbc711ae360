(** Proofs about the hash of a token at a position of a minhash signature: how many token hashes
    are mapped to one value. *)
From stdpp Require Import base list.
From Coq Require Import NArith ZArith Znumtheory Lia.
Local Open Scope N_scope.

Lemma odd_inverse (w a : N) : N.odd a = true -> exists c, (a * c) mod 2 ^ w = 1 mod 2 ^ w.
Proof.
  intros Ha.
  assert (Hr : rel_prime (Z.of_N a) (2 ^ Z.of_N w)).
  { apply rel_prime_sym. rewrite <- (Z2N.id (Z.of_N w)) by lia. rewrite N2Z.id.
    induction w as [|w IH] using N.peano_ind; [apply rel_prime_1|].
    rewrite N2Z.inj_succ, Z.pow_succ_r by lia. apply rel_prime_sym, rel_prime_mult; [|by apply rel_prime_sym].
    apply rel_prime_sym, prime_rel_prime; [apply prime_2|]. intros [z Hz].
    apply N.odd_spec in Ha as [y Hy]. lia. }
  apply rel_prime_bezout in Hr as [u v Huv].
  exists (Z.to_N (u mod 2 ^ Z.of_N w)). apply N2Z.inj.
  assert (HM : (0 < 2 ^ Z.of_N w)%Z) by (apply Z.pow_pos_nonneg; lia).
  rewrite !N2Z.inj_mod, N2Z.inj_mul, N2Z.inj_pow, Z2N.id by (apply Z.mod_pos_bound; lia).
  change (Z.of_N 2) with 2%Z. rewrite Z.mul_mod_idemp_r by lia.
  change (Z.of_N 1) with 1%Z. rewrite <- Huv.
  rewrite (Z.mul_comm (Z.of_N a) u). rewrite <- (Z.mod_add (u * Z.of_N a) v (2 ^ Z.of_N w)) by lia. done.
Qed.

Section Preimages.
Context (w P a b : N) (HP : 0 < P) (Ha : N.odd a = true).
Notation M := (2 ^ w).

Lemma M_pos : M ≠ 0.
Proof. apply N.pow_nonzero. done. Qed.

(** With an odd coefficient the wrapped value is reached exactly once. *)
Lemma affine_bijective y : y < M -> exists x, x < M /\ (x * a + b) mod M = y /\
  forall x', x' < M -> (x' * a + b) mod M = y -> x' = x.
Proof.
  intros Hy. pose proof M_pos as HM. destruct (odd_inverse w a Ha) as [c Hc].
  assert (Hcancel : forall x, x < M -> ((x * a) * c) mod M = x).
  { intros x Hx. rewrite <- N.mul_assoc. rewrite <- N.mul_mod_idemp_r, Hc, N.mul_mod_idemp_r, N.mul_1_r by done.
    by apply N.mod_small. }
  set (b' := M - b mod M). assert (Hb : (b + b') mod M = 0).
  { unfold b'. rewrite <- N.add_mod_idemp_l by done. pose proof (N.mod_lt b M HM).
    replace (b mod M + (M - b mod M)) with M by lia. by apply N.mod_same. }
  exists (((y + b') * c) mod M). split; [by apply N.mod_lt|]. split.
  - rewrite <- N.add_mod_idemp_l, N.mul_mod_idemp_l, N.add_mod_idemp_l by done.
    replace ((y + b') * c * a) with ((y + b') * (a * c)) by lia.
    rewrite <- N.add_mod_idemp_l, <- (N.mul_mod_idemp_r (y + b')), Hc, N.mul_mod_idemp_r, N.mul_1_r, N.add_mod_idemp_l by done.
    replace (y + b' + b) with (y + (b + b')) by lia. rewrite <- N.add_mod_idemp_r, Hb, N.add_0_r by done.
    by apply N.mod_small.
  - intros x' Hx' E. rewrite <- (Hcancel x' Hx'). rewrite <- E.
    assert (E2 : ((x' * a + b) mod M + b') mod M = (x' * a) mod M).
    { rewrite N.add_mod_idemp_l by done. rewrite <- N.add_assoc, <- N.add_mod_idemp_r, Hb, N.add_0_r by done. done. }
    rewrite <- (N.mul_mod_idemp_l ((x' * a + b) mod M + b')), E2, N.mul_mod_idemp_l by done. done.
Qed.

Definition count (v : N) : nat := N.to_nat ((M - v + (P - 1)) / P).

Lemma preimages v : v < P -> exists l : list N, NoDup l /\ length l = count v /\
  forall x, x ∈ l <-> x < M /\ ((x * a + b) mod M) mod P = v.
Proof.
  intros Hv. pose proof M_pos as HM.
  assert (Hn : forall n, (forall t, (t < n)%nat -> v + N.of_nat t * P < M) -> exists l : list N, NoDup l /\ length l = n /\
    forall x, x ∈ l <-> x < M /\ exists t, (t < n)%nat /\ (x * a + b) mod M = v + N.of_nat t * P).
  { induction n as [|n IH]; intros Hlt.
    - exists []. split; [constructor|]. split; [done|]. intros x. rewrite elem_of_nil. split; [done|].
      intros (_ & t & Ht & _). lia.
    - destruct IH as (l & Hnd & Hl & Hin); [intros t Ht; apply Hlt; lia|].
      destruct (affine_bijective (v + N.of_nat n * P)) as (x & Hx & Ex & Hu); [apply Hlt; lia|].
      exists (x :: l). split.
      + constructor; [|done]. rewrite Hin. intros (_ & t & Ht & Et). rewrite Ex in Et. nia.
      + split; [cbn; lia|]. intros y. rewrite elem_of_cons, Hin. split.
        * intros [->|(Hy & t & Ht & Et)]; [split; [done|]; exists n; split; [lia|done]|].
          split; [done|]. exists t. split; [lia|done].
        * intros (Hy & t & Ht & Et). destruct (decide (t = n)) as [->|Hne]; [left; by apply Hu|].
          right. split; [done|]. exists t. split; [lia|done]. }
  destruct (Hn (count v)) as (l & Hnd & Hl & Hin).
  { intros t Ht. unfold count in Ht.
    assert (Ht' : N.of_nat t < (M - v + (P - 1)) / P) by lia.
    pose proof (N.mul_div_le (M - v + (P - 1)) P ltac:(lia)). nia. }
  exists l. split; [done|]. split; [done|]. intros x. rewrite Hin. split; intros [Hx H]; (split; [done|]).
  - destruct H as (t & _ & ->). rewrite N.mod_add by lia. by apply N.mod_small.
  - set (y := (x * a + b) mod M) in *. assert (Hy : y < M) by (by apply N.mod_lt).
    pose proof (N.div_mod y P ltac:(lia)) as Hd. exists (N.to_nat (y / P)). rewrite N2Nat.id.
    split; [|rewrite <- H; lia]. unfold count. enough (y / P < (M - v + (P - 1)) / P) by lia.
    apply N.lt_le_trans with (y / P + 1); [lia|]. apply N.div_le_lower_bound; [lia|]. nia.
Qed.
End Preimages.

(** With an even coefficient the upper bit of a token hash is lost. *)
Lemma even_collide w a b x : 0 < w -> N.even a = true ->
  ((x + 2 ^ (w - 1)) * a + b) mod 2 ^ w = (x * a + b) mod 2 ^ w.
Proof.
  intros Hw Ha. apply N.even_spec in Ha as [c Hc].
  replace ((x + 2 ^ (w - 1)) * a + b) with (x * a + b + c * 2 ^ w).
  - apply N.mod_add. by apply N.pow_nonzero.
  - rewrite Hc. replace w with (N.succ (w - 1)) at 1 by lia. rewrite N.pow_succ_r'. lia.
Qed.
