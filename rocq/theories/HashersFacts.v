(** Proofs about Hashers.v. *)
From stdpp Require Import base list.
From Coq Require Import NArith ZArith Lia.
From Verif Require Import Base SimHashBits Hashers.
Local Open Scope N_scope.

Lemma from_be_app l x : from_be_bytes (l ++ [x]) = from_be_bytes l * 256 + x.
Proof. unfold from_be_bytes. by rewrite foldl_app. Qed.

Lemma from_be_bound l : Forall (fun b => b < 256) l -> from_be_bytes l < 256 ^ N.of_nat (length l).
Proof.
  induction l as [|x l IH] using rev_ind; intros H; [done|].
  apply Forall_app in H as [Hl Hx]. apply Forall_inv in Hx. specialize (IH Hl).
  rewrite from_be_app, app_length. cbn [length]. rewrite Nat.add_1_r, Nat2N.inj_succ, N.pow_succ_r'. lia.
Qed.

Lemma from_be_digit l j b : Forall (fun b => b < 256) l -> l !! j = Some b ->
  (from_be_bytes l / 256 ^ N.of_nat (length l - 1 - j)) mod 256 = b.
Proof.
  revert j. induction l as [|x l IH] using rev_ind; intros j H Hj; [done|].
  apply Forall_app in H as [Hl Hx]. apply Forall_inv in Hx. rewrite from_be_app, app_length. cbn [length].
  destruct (decide (j = length l)) as [->|Hne].
  - rewrite lookup_app_r, Nat.sub_diag in Hj by done. cbn in Hj. injection Hj as <-.
    replace (length l + 1 - 1 - length l)%nat with 0%nat by lia. cbn [N.of_nat]. rewrite N.pow_0_r, N.div_1_r.
    rewrite N.add_comm, N.mod_add by done. by apply N.mod_small.
  - apply lookup_lt_Some in Hj as Hlt. rewrite app_length in Hlt. cbn [length] in Hlt.
    rewrite lookup_app_l in Hj by lia.
    replace (length l + 1 - 1 - j)%nat with (S (length l - 1 - j)) by lia.
    rewrite Nat2N.inj_succ, N.pow_succ_r'. rewrite <- N.div_div by (try apply N.pow_nonzero; done).
    rewrite (N.add_comm _ x), N.div_add, (N.div_small x), N.add_0_l by done. by apply IH.
Qed.

Lemma from_be_inj l l' : length l = length l' -> Forall (fun b => b < 256) l -> Forall (fun b => b < 256) l' ->
  from_be_bytes l = from_be_bytes l' -> l = l'.
Proof.
  intros Hl H H' E. apply list_eq_same_length with (n := length l); [done|done|].
  intros i x y Hi Hx Hy.
  rewrite <- (from_be_digit l i x H Hx), <- (from_be_digit l' i y H' Hy), E, Hl. done.
Qed.

Lemma writes_concat writes s : sha_bytes (foldl sha1_write s writes) = sha_bytes s ++ concat writes.
Proof.
  revert s. induction writes as [|w ws IH]; intros s; cbn [foldl concat]; [by rewrite app_nil_r|].
  rewrite IH. cbn. by rewrite app_assoc.
Qed.

Lemma shr_div W x n : (n < W)%nat -> shr W x n = Ok (x / 2 ^ N.of_nat n).
Proof. intros Hn. unfold shr. rewrite (proj2 (Nat.ltb_lt n W) Hn). by rewrite N.shiftr_div_pow2. Qed.

Lemma high_bits W b x : (b <= W)%nat -> (0 < b)%nat -> x < 2 ^ N.of_nat W ->
  exists y, shr W x (W - b) = Ok y /\ y mod 2 ^ N.of_nat b = y /\ y < 2 ^ N.of_nat b /\
    (y * 2 ^ N.of_nat (W - b) <= x < (y + 1) * 2 ^ N.of_nat (W - b)).
Proof.
  intros Hb Hb0 Hx. exists (x / 2 ^ N.of_nat (W - b)). rewrite shr_div by lia. split; [done|].
  assert (Hp : 2 ^ N.of_nat (W - b) ≠ 0) by (by apply N.pow_nonzero).
  assert (Hlt : x / 2 ^ N.of_nat (W - b) < 2 ^ N.of_nat b).
  { apply N.div_lt_upper_bound; [done|]. rewrite <- N.pow_add_r, <- Nat2N.inj_add.
    by replace (W - b + b)%nat with W by lia. }
  split; [by apply N.mod_small|]. split; [done|].
  pose proof (N.mul_div_le x _ Hp). pose proof (N.mul_succ_div_gt x _ Hp).
  set (y := x / 2 ^ N.of_nat (W - b)) in *. rewrite <- N.add_1_r in *. lia.
Qed.
