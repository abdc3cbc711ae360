(** Facts about the FNV token hash: which bytes can collide. *)
From stdpp Require Import base list.
From Coq Require Import NArith ZArith Znumtheory Zpow_facts Lia.
From Verif Require Import Base MinHasher Fnv.
Local Open Scope Z_scope.

Definition bytes (l : list N) : Prop := Forall (fun b => (b < 256)%N) l.

Lemma bytes_snoc l b : bytes (l ++ [b]) <-> bytes l /\ (b < 256)%N.
Proof. unfold bytes. by rewrite Forall_app, Forall_singleton. Qed.

Lemma of_N_lxor a b : Z.of_N (N.lxor a b) = Z.lxor (Z.of_N a) (Z.of_N b).
Proof. destruct a, b; reflexivity. Qed.

Lemma lxor_mod a b w : 8 <= w -> 0 <= a -> 0 <= b < 256 -> Z.lxor (a mod 2 ^ w) b = Z.lxor a b mod 2 ^ w.
Proof.
  intros Hw Ha Hb. apply Z.bits_inj'. intros n Hn. rewrite Z.lxor_spec.
  destruct (Z.ltb_spec n w).
  - rewrite !Z.mod_pow2_bits_low by lia. by rewrite Z.lxor_spec.
  - rewrite !Z.mod_pow2_bits_high by lia.
    rewrite (Z.mod_small b (2 ^ w)) || idtac.
    assert (Hz : Z.testbit b n = false).
    { destruct (decide (b = 0)) as [->|]; [apply Z.bits_0|]. apply Z.bits_above_log2; [lia|].
      apply Z.log2_lt_pow2; [lia|]. assert (2 ^ 8 <= 2 ^ n) by (apply Z.pow_le_mono_r; lia). lia. }
    by rewrite Hz.
Qed.

(** The low byte is the only one changed. *)
Lemma lxor_div a b : 0 <= a -> 0 <= b < 256 -> Z.lxor a b / 256 = a / 256.
Proof.
  intros Ha Hb. change 256 with (2 ^ 8). rewrite <- !Z.shiftr_div_pow2 by lia.
  rewrite Z.shiftr_lxor. rewrite (Z.shiftr_div_pow2 b) by lia.
  change (2 ^ 8) with 256. rewrite (Z.div_small b) by lia. apply Z.lxor_0_r.
Qed.
Lemma lxor_pos a b : 0 <= a -> 0 <= b -> 0 <= Z.lxor a b.
Proof. intros. apply Z.lxor_nonneg. lia. Qed.
Lemma lxor_near a b : 0 <= a -> 0 <= b < 256 -> Z.abs (Z.lxor a b - a) <= 255.
Proof.
  intros Ha Hb. pose proof (lxor_div a b Ha Hb) as E. pose proof (lxor_pos a b Ha ltac:(lia)).
  pose proof (Z.div_mod a 256). pose proof (Z.div_mod (Z.lxor a b) 256).
  pose proof (Z.mod_pos_bound a 256). pose proof (Z.mod_pos_bound (Z.lxor a b) 256). lia.
Qed.
Lemma lxor_inj a b c : Z.lxor a b = Z.lxor a c -> b = c.
Proof. intros E. apply (f_equal (Z.lxor a)) in E. by rewrite <- !Z.lxor_assoc, Z.lxor_nilpotent, !Z.lxor_0_l in E. Qed.

(** ** The state modulo a power of two on which the multiplier is 435 *)
Section Mod.
Context (w : Z) (Hw : 8 <= w <= 40).
Notation M := (2 ^ w).
Definition low (h : N) : Z := Z.of_N h mod M.

Lemma Mpos : 256 <= M.
Proof using Hw. change 256 with (2 ^ 8). apply Z.pow_le_mono_r; lia. Qed.
Lemma low_range h : 0 <= low h < M.
Proof using Hw. apply Z.mod_pos_bound. pose proof Mpos. lia. Qed.

Lemma low_byte h b : (b < 256)%N -> low (fnv_byte h b) = (Z.lxor (low h) (Z.of_N b) * 435) mod M.
Proof using Hw.
  intros Hb. unfold low, fnv_byte, wrapping_mul, u64. rewrite N2Z.inj_mod, N2Z.inj_mul, of_N_lxor.
  rewrite lxor_mod by lia. set (x := Z.lxor (Z.of_N h) (Z.of_N b)). pose proof Mpos.
  rewrite <- Zmod_div_mod; [|lia|lia|].
  2: { exists (2 ^ (64 - w)). rewrite <- Z.pow_add_r by lia. by replace (64 - w + w) with 64 by lia. }
  replace (Z.of_N 1099511628211) with (435 + 2 ^ (40 - w) * M).
  2: { rewrite <- Z.pow_add_r by lia. by replace (40 - w + w) with 40 by lia. }
  rewrite Z.mul_mod_idemp_l by lia. rewrite Z.mul_add_distr_l, Z.mul_assoc. by rewrite Z.mod_add by lia.
Qed.

(** The multiplication can be undone. *)
Lemma mul_inj x y : 0 <= x < M -> 0 <= y < M -> (x * 435) mod M = (y * 435) mod M -> x = y.
Proof using Hw.
  intros Hx Hy E. pose proof Mpos.
  assert (Hd : (M | 435 * (x - y))).
  { apply Z.mod_divide; [lia|]. replace (435 * (x - y)) with (x * 435 - y * 435) by ring.
    rewrite Zminus_mod, E, Z.sub_diag. apply Z.mod_0_l. lia. }
  apply Gauss in Hd.
  - destruct Hd as [k Hk]. assert (k = 0) by nia. subst. lia.
  - apply rel_prime_sym, rel_prime_Zpower_r; [lia|]. apply Zgcd_1_rel_prime. reflexivity.
Qed.

Lemma low_lxor h b : (b < 256)%N -> 0 <= Z.lxor (low h) (Z.of_N b) < M.
Proof using Hw.
  intros Hb. unfold low. rewrite lxor_mod by lia. apply Z.mod_pos_bound. pose proof Mpos. lia.
Qed.

(** Equal states had the same upper bytes before the last byte. *)
Lemma byte_back h h' b b' : (b < 256)%N -> (b' < 256)%N -> low (fnv_byte h b) = low (fnv_byte h' b') ->
  Z.lxor (low h) (Z.of_N b) = Z.lxor (low h') (Z.of_N b').
Proof using Hw.
  intros Hb Hb' E. rewrite !low_byte in E by done. apply mul_inj in E; auto using low_lxor.
Qed.
Lemma lxor_diff x y b b' : 0 <= x -> 0 <= y -> 0 <= b < 256 -> 0 <= b' < 256 ->
  Z.lxor x b = Z.lxor y b' -> Z.abs (x - y) <= 255.
Proof.
  intros Hx Hy Hb Hb' E. pose proof (lxor_div x b Hx Hb) as E1. pose proof (lxor_div y b' Hy Hb') as E2.
  rewrite E in E1. pose proof (Z.div_mod x 256). pose proof (Z.div_mod y 256).
  pose proof (Z.mod_pos_bound x 256). pose proof (Z.mod_pos_bound y 256). lia.
Qed.
Lemma byte_near h h' b b' : (b < 256)%N -> (b' < 256)%N -> low (fnv_byte h b) = low (fnv_byte h' b') ->
  Z.abs (low h - low h') <= 255 /\ (low h = low h' -> b = b').
Proof using Hw.
  intros Hb Hb' E. apply byte_back in E; [|done..]. pose proof (low_range h). pose proof (low_range h').
  split; [apply (lxor_diff _ _ _ _) in E; lia|].
  intros E2. rewrite E2 in E. apply lxor_inj in E. lia.
Qed.

(** After [n] bytes the state is [drift n] at most from [h * 435^n]. *)
Fixpoint drift (n : nat) : Z := match n with O => 0 | S n' => 435 * (drift n' + 255) end.
Lemma drift_pos n : 0 <= drift n.
Proof. induction n; cbn [drift]; lia. Qed.

Lemma write_snoc h l b : fnv_write h (l ++ [b]) = fnv_byte (fnv_write h l) b.
Proof. unfold fnv_write. by rewrite foldl_app. Qed.
Lemma write_app h l l' : fnv_write h (l ++ l') = fnv_write (fnv_write h l) l'.
Proof. unfold fnv_write. by rewrite foldl_app. Qed.

Lemma near_centre h l : bytes l -> exists d, Z.abs d <= drift (length l) /\
  (M | low (fnv_write h l) - Z.of_N h * 435 ^ Z.of_nat (length l) - d).
Proof using Hw.
  pose proof Mpos. induction l as [|b l IH] using rev_ind; intros Hl.
  - exists 0. split; [cbn; lia|]. cbn [fnv_write foldl length]. unfold low.
    exists (- (Z.of_N h / M)). pose proof (Z.div_mod (Z.of_N h) M). change (435 ^ Z.of_nat 0) with 1. lia.
  - apply bytes_snoc in Hl as [Hl Hb]. destruct (IH Hl) as (d & Hd & k & Hk).
    rewrite write_snoc, low_byte by done. set (x := low (fnv_write h l)) in *.
    assert (Hx : 0 <= x) by apply low_range.
    pose proof (lxor_near x (Z.of_N b) Hx ltac:(lia)) as Hn.
    exists (435 * (d + (Z.lxor x (Z.of_N b) - x))).
    rewrite app_length. cbn [length]. rewrite Nat.add_1_r. cbn [drift]. split; [lia|].
    rewrite Nat2Z.inj_succ, Z.pow_succ_r by lia.
    set (y := Z.lxor x (Z.of_N b)) in *. set (c := 435 ^ Z.of_nat (length l)) in *.
    exists (435 * k - (y * 435) / M). pose proof (Z.div_mod (y * 435) M).
    replace ((435 * k - y * 435 / M) * M) with (435 * (k * M) - M * (y * 435 / M)) by ring. rewrite <- Hk. lia.
Qed.
(** The same before the multiplication. *)
Lemma near_lxor h l b : bytes l -> (b < 256)%N -> exists d, Z.abs d <= drift (length l) + 255 /\
  (M | Z.lxor (low (fnv_write h l)) (Z.of_N b) - Z.of_N h * 435 ^ Z.of_nat (length l) - d).
Proof using Hw.
  intros Hl Hb. destruct (near_centre h l Hl) as (d & Hd & k & Hk).
  set (x := low (fnv_write h l)) in *. assert (Hx : 0 <= x) by apply low_range.
  pose proof (lxor_near x (Z.of_N b) Hx ltac:(lia)) as Hn.
  exists (d + (Z.lxor x (Z.of_N b) - x)). split; [lia|]. exists k. lia.
Qed.

(** ** Equal lengths *)
Lemma same_length h n : 870 * (drift (n - 2) + 255) + 255 < M -> forall l l', bytes l -> bytes l' ->
  length l = length l' -> (length l <= n)%nat -> low (fnv_write h l) = low (fnv_write h l') -> l = l'.
Proof using Hw.
  intros HM l. induction l as [|b l IH] using rev_ind; intros l' Hl Hl' Hlen Hn E.
  { by destruct l'. }
  destruct l' as [|b' l' _] using rev_ind; [rewrite app_length in Hlen; cbn in Hlen; lia|].
  rewrite !app_length in Hlen. cbn [length] in Hlen. rewrite app_length in Hn. cbn [length] in Hn.
  apply bytes_snoc in Hl as [Hl Hb]. apply bytes_snoc in Hl' as [Hl' Hb'].
  rewrite !write_snoc in E. destruct (byte_near _ _ _ _ Hb Hb' E) as [Hd Hi].
  enough (Hs : low (fnv_write h l) = low (fnv_write h l')).
  { rewrite (IH l') by (done || lia). by rewrite (Hi Hs). }
  destruct l as [|c l _] using rev_ind; [destruct l'; [done|cbn in Hlen; lia]|].
  destruct l' as [|c' l' _] using rev_ind; [rewrite !app_length in Hlen; cbn in Hlen; lia|].
  rewrite !app_length in Hlen. cbn [length] in Hlen. rewrite app_length in Hn. cbn [length] in Hn.
  apply bytes_snoc in Hl as [Hl Hc]. apply bytes_snoc in Hl' as [Hl' Hc'].
  rewrite !write_snoc in *. rewrite !low_byte in * by done.
  destruct (near_lxor h l c Hl Hc) as (d & Hd1 & k & Hk).
  destruct (near_lxor h l' c' Hl' Hc') as (d' & Hd1' & k' & Hk').
  assert (Hm : drift (length l) <= drift (n - 2)).
  { assert (Hle : (length l <= n - 2)%nat) by lia. clear -Hle. induction Hle as [|m Hle IH]; [done|].
    pose proof (drift_pos m). cbn [drift]. lia. }
  replace (length l') with (length l) in * by lia.
  set (X := Z.lxor (low (fnv_write h l)) (Z.of_N c)) in *. set (Y := Z.lxor (low (fnv_write h l')) (Z.of_N c')) in *.
  set (K := Z.of_N h * 435 ^ Z.of_nat (length l)) in *. pose proof Mpos.
  pose proof (Z.div_mod (X * 435) M). pose proof (Z.div_mod (Y * 435) M).
  set (x := (X * 435) mod M) in *. set (y := (Y * 435) mod M) in *.
  assert (Hz : (M | 435 * (d - d') - (x - y))).
  { exists (X * 435 / M - Y * 435 / M - 435 * (k - k')).
    rewrite !Z.mul_sub_distr_r, <- (Z.mul_assoc 435), Z.mul_sub_distr_r, <- Hk, <- Hk'. lia. }
  destruct Hz as [z Hz]. assert (z = 0) by nia. lia.
Qed.

(** ** Different lengths: checks of the 511 possible differences *)
Definition away (i base m : Z) : bool :=
  forallb (fun j => let r := (base + (Z.of_nat j - 255) * i) mod M in (m <? r) && (r <? M - m)) (seq 0 511).
Lemma away_spec i base m e d : away i base m = true -> Z.abs e <= 255 -> Z.abs d <= m ->
  ~ (M | base + e * i - d).
Proof using Hw.
  intros Ha He Hd [k Hk]. unfold away in Ha. rewrite forallb_forall in Ha.
  specialize (Ha (Z.to_nat (e + 255))). rewrite in_seq in Ha. specialize (Ha ltac:(lia)).
  rewrite Z2Nat.id in Ha by lia. replace (e + 255 - 255) with e in Ha by lia.
  apply andb_true_iff in Ha as [H1%Z.ltb_lt H2%Z.ltb_lt]. pose proof Mpos.
  pose proof (Z.div_mod (base + e * i) M ltac:(lia)) as Hq. pose proof (Z.mod_pos_bound (base + e * i) M ltac:(lia)).
  set (r := (base + e * i) mod M) in *. set (q := (base + e * i) / M) in *.
  assert (k * M + d = M * q + r) by (rewrite <- Hq, <- Hk; ring).
  assert (Hb : 0 < r - d < M) by lia.
  assert (Hz : (k - q) * M = r - d) by (replace ((k - q) * M) with (k * M - M * q) by ring; lia).
  rewrite <- Hz in Hb. destruct (Z.le_gt_cases (k - q) 0).
  - assert ((k - q) * M <= 0) by (apply Z.mul_nonpos_nonneg; lia). lia.
  - assert (1 * M <= (k - q) * M) by (apply Z.mul_le_mono_nonneg_r; lia). lia.
Qed.

Context (i : Z) (Hi : (435 * i) mod M = 1).
Lemma undo x : exists k, 435 * x * i = x + k * M.
Proof using Hi Hw.
  pose proof Mpos. pose proof (Z.div_mod (435 * i) M). exists (x * ((435 * i) / M)).
  replace (435 * x * i) with (x * (435 * i)) by ring. rewrite H0 at 1 by lia. rewrite Hi. ring.
Qed.

Lemma reach h l b y : bytes l -> (b < 256)%N -> Z.abs (low (fnv_write h (l ++ [b])) - y) <= 255 ->
  exists e d, Z.abs e <= 255 /\ Z.abs d <= drift (length l) + 255 /\
    (M | (y * i - Z.of_N h * 435 ^ Z.of_nat (length l)) + e * i - d).
Proof using Hi Hw.
  intros Hl Hb Hy. destruct (near_lxor h l b Hl Hb) as (d & Hd & k & Hk).
  rewrite write_snoc, low_byte in Hy by done. set (X := Z.lxor (low (fnv_write h l)) (Z.of_N b)) in *.
  pose proof Mpos. pose proof (Z.div_mod (X * 435) M). set (x := (X * 435) mod M) in *.
  exists (x - y), d. split_and!; [done..|]. destruct (undo X) as [j Hj].
  set (K := Z.of_N h * 435 ^ Z.of_nat (length l)) in *.
  exists (k + j - (X * 435 / M) * i).
  replace ((k + j - X * 435 / M * i) * M) with (k * M + j * M - (M * (X * 435 / M)) * i) by ring.
  assert (M * (X * 435 / M) = X * 435 - x) as -> by lia. rewrite <- Hk.
  replace ((X * 435 - x) * i) with (435 * X * i - x * i) by ring. rewrite Hj. ring.
Qed.

Notation centre h n := (Z.of_N h * 435 ^ Z.of_nat n).
(** [l] has [n] bytes and [l'] [m] bytes. *)
Definition apart (h : N) (n m : nat) : bool :=
  match n, m with
  | 1%nat, O => (255 <? Z.abs (low h - (Z.of_N h * i) mod M))
  | S (S n'), O => away i ((Z.of_N h * i) mod M * i - centre h n') (drift n' + 255)
  | S (S n'), 1%nat => away i (low h * i - centre h n') (drift n' + 255)
  | S (S n'), S (S m') => away i (centre h m' - centre h n') (drift n' + drift m' + 510)
  | _, _ => false
  end.

Lemma last_byte h l b : (b < 256)%N -> low (fnv_byte (fnv_write h l) b) = low h ->
  Z.abs (low (fnv_write h l) - (Z.of_N h * i) mod M) <= 255.
Proof using Hi Hw.
  intros Hb E. pose proof Mpos. rewrite low_byte in E by done. pose proof (low_lxor (fnv_write h l) b Hb) as Hr.
  pose proof (low_range (fnv_write h l)). pose proof (Z.mod_pos_bound (Z.of_N h * i) M).
  assert (Ex : Z.lxor (low (fnv_write h l)) (Z.of_N b) = (Z.of_N h * i) mod M).
  { apply mul_inj; [done|lia|]. rewrite E, Z.mul_mod_idemp_l by lia. unfold low.
    replace (Z.of_N h * i * 435) with (435 * Z.of_N h * i) by ring. destruct (undo (Z.of_N h)) as [k ->].
    by rewrite Z.mod_add by lia. }
  rewrite <- Ex. pose proof (lxor_near (low (fnv_write h l)) (Z.of_N b)). lia.
Qed.

Lemma other_length h l l' : bytes l -> bytes l' -> apart h (length l) (length l') = true ->
  low (fnv_write h l) <> low (fnv_write h l').
Proof using Hi Hw.
  intros Hl Hl' Ha E.
  destruct l as [|b l _] using rev_ind; [done|].
  rewrite app_length, Nat.add_1_r in Ha. apply bytes_snoc in Hl as [Hl Hb].
  destruct l as [|c l _] using rev_ind.
  - cbn [length] in Ha. destruct l'; [|done]. cbn [length apart] in Ha. apply Z.ltb_lt in Ha.
    pose proof (last_byte h [] b Hb E) as Hn. cbn [fnv_write foldl] in Hn. lia.
  - rewrite app_length, Nat.add_1_r in Ha. apply bytes_snoc in Hl as [Hl Hc].
    rewrite (write_snoc h _ b) in E. destruct l' as [|b' l' _] using rev_ind.
    + cbn [length apart] in Ha. pose proof (last_byte h _ b Hb E) as Hn.
      destruct (reach h l c _ Hl Hc Hn) as (e & d & He & Hd & Hk). eapply away_spec; eauto.
    + rewrite app_length, Nat.add_1_r in Ha. apply bytes_snoc in Hl' as [Hl' Hb'].
      rewrite (write_snoc h l' b') in E. destruct (byte_near _ _ _ _ Hb Hb' E) as [Hn _].
      destruct (reach h l c _ Hl Hc Hn) as (e & d & He & Hd & Hk).
      destruct l' as [|c' l' _] using rev_ind.
      * cbn [length apart] in Ha. eapply away_spec; eauto.
      * rewrite app_length, Nat.add_1_r in Ha. apply bytes_snoc in Hl' as [Hl' Hc'].
        cbn [apart] in Ha. destruct (reach h l' c' (low (fnv_write h (l' ++ [c']))) Hl' Hc') as (e' & d' & He' & Hd' & Hk'); [lia|].
        destruct (near_lxor h l' c' Hl' Hc') as (d2 & Hd2 & k2 & Hk2).
        rewrite (write_snoc h l' c'), low_byte in Hk by done.
        set (Y := Z.lxor (low (fnv_write h l')) (Z.of_N c')) in *. pose proof Mpos.
        pose proof (Z.div_mod (Y * 435) M). destruct (undo Y) as [j Hj].
        eapply (away_spec i _ _ e (d - d2) Ha); [done|lia|]. destruct Hk as [k Hk].
        exists (k - k2 - j + (Y * 435 / M) * i).
        replace ((k - k2 - j + Y * 435 / M * i) * M) with (k * M - k2 * M - j * M + M * (Y * 435 / M) * i) by ring.
        assert (M * (Y * 435 / M) = Y * 435 - (Y * 435) mod M) as -> by lia. rewrite <- Hk, <- Hk2.
        replace ((Y * 435 - (Y * 435) mod M) * i) with (435 * Y * i - (Y * 435) mod M * i) by ring.
        rewrite Hj. ring.
Qed.
End Mod.

Lemma inj_of h w i m n (Hw : 8 <= w <= 40) : (435 * i) mod 2 ^ w = 1 -> 870 * (drift (n - 2) + 255) + 255 < 2 ^ w ->
  forallb (fun a => forallb (fun b => apart w i h a b) (seq m (a - m))) (seq m (S n - m)) = true ->
  forall l l', bytes l -> bytes l' -> (m <= length l <= n)%nat -> (m <= length l' <= n)%nat ->
  low w (fnv_write h l) = low w (fnv_write h l') -> l = l'.
Proof.
  intros Hi Hn Hc.
  assert (Hap : forall a b, (a <= n)%nat -> (m <= b < a)%nat -> apart w i h a b = true).
  { intros a b Ha Hb. rewrite forallb_forall in Hc. specialize (Hc a). rewrite in_seq, forallb_forall in Hc.
    apply Hc; [lia|]. apply in_seq. lia. }
  intros l l' Hl Hl' Hll Hll' E.
  destruct (Nat.lt_trichotomy (length l) (length l')) as [Hlt|[Heq|Hlt]].
  - destruct (other_length w Hw i Hi h l' l Hl' Hl (Hap (length l') (length l) ltac:(lia) ltac:(lia))). done.
  - apply (same_length w Hw h n); done || lia.
  - destruct (other_length w Hw i Hi h l l' Hl Hl' (Hap (length l) (length l') ltac:(lia) ltac:(lia))). done.
Qed.

(** The hashes of the last step: appending the same bytes keeps them apart. *)
Lemma low_suffix w (Hw : 8 <= w <= 40) h h' s : bytes s -> low w (fnv_write h s) = low w (fnv_write h' s) <-> low w h = low w h'.
Proof.
  intros Hs. induction s as [|b s IH] using rev_ind; [done|]. apply bytes_snoc in Hs as [Hs Hb].
  rewrite !write_snoc, <- IH by done. split.
  - intros E. apply (byte_back w Hw) in E; [|done..].
    assert (E2 : forall x y, Z.lxor x (Z.of_N b) = Z.lxor y (Z.of_N b) -> x = y).
    { intros x y Exy. rewrite !(Z.lxor_comm _ (Z.of_N b)) in Exy. by apply lxor_inj in Exy. }
    by apply E2.
  - intros E. rewrite !(low_byte w Hw) by done. by rewrite E.
Qed.
Lemma byte_lt h b : (fnv_byte h b < 2 ^ 64)%N.
Proof. unfold fnv_byte, wrapping_mul, u64. change (2 ^ 64)%N with 18446744073709551616%N. apply N.mod_lt. done. Qed.
Lemma write_lt h s : (h < 2 ^ 64)%N -> (fnv_write h s < 2 ^ 64)%N.
Proof. intros Hh. destruct s as [|b s _] using rev_ind; [done|]. rewrite write_snoc. apply byte_lt. Qed.

Lemma lxor_lt64 h b : (h < 2 ^ 64)%N -> (b < 256)%N -> (N.lxor h b < 2 ^ 64)%N.
Proof.
  intros Hh Hb. pose proof (lxor_mod (Z.of_N h) (Z.of_N b) 64 ltac:(lia) ltac:(lia) ltac:(lia)) as E.
  rewrite Z.mod_small in E by lia. rewrite <- of_N_lxor in E.
  pose proof (Z.mod_pos_bound (Z.of_N (N.lxor h b)) (2 ^ 64) ltac:(lia)). lia.
Qed.
Lemma byte_inj h h' b b' : (h < 2 ^ 64)%N -> (h' < 2 ^ 64)%N -> (b < 256)%N -> (b' < 256)%N ->
  fnv_byte h b = fnv_byte h' b' -> N.lxor h b = N.lxor h' b'.
Proof.
  intros Hh Hh' Hb Hb'. pose proof (lxor_lt64 h b Hh Hb). pose proof (lxor_lt64 h' b' Hh' Hb').
  unfold fnv_byte, wrapping_mul, u64. generalize dependent (N.lxor h b). generalize dependent (N.lxor h' b').
  intros y Hy x Hx E. apply (f_equal Z.of_N) in E. rewrite !N2Z.inj_mod, !N2Z.inj_mul in E.
  assert (Hd : (2 ^ 64 | 1099511628211 * (Z.of_N x - Z.of_N y))).
  { apply Z.mod_divide; [lia|].
    replace (1099511628211 * (Z.of_N x - Z.of_N y)) with (Z.of_N x * 1099511628211 - Z.of_N y * 1099511628211) by ring.
    rewrite Zminus_mod. change (2 ^ 64) with (Z.of_N 18446744073709551616). change 1099511628211 with (Z.of_N 1099511628211).
    rewrite E, Z.sub_diag. done. }
  apply Gauss in Hd.
  - destruct Hd as [k Hk]. assert (k = 0) by lia. subst. lia.
  - apply rel_prime_sym, rel_prime_Zpower_r; [lia|]. apply Zgcd_1_rel_prime. reflexivity.
Qed.
Lemma write_suffix h h' s : bytes s -> (h < 2 ^ 64)%N -> (h' < 2 ^ 64)%N -> fnv_write h s = fnv_write h' s <-> h = h'.
Proof.
  intros Hs Hh Hh'. induction s as [|b s IH] using rev_ind; [done|]. apply bytes_snoc in Hs as [Hs Hb].
  rewrite !write_snoc, <- IH by done. split; [|by intros ->].
  intros E. apply byte_inj in E; auto using write_lt.
  apply (f_equal (fun x => N.lxor x b)) in E. by rewrite !N.lxor_assoc, N.lxor_nilpotent, !N.lxor_0_r in E.
Qed.

Lemma low_eq w h h' : 0 <= w -> low w h = low w h' <-> (h mod 2 ^ Z.to_N w = h' mod 2 ^ Z.to_N w)%N.
Proof.
  intros Hw. unfold low.
  assert (2 ^ w = Z.of_N (2 ^ Z.to_N w)) as -> by (rewrite N2Z.inj_pow, Z2N.id; done).
  rewrite <- !N2Z.inj_mod. split; [apply N2Z.inj|by intros ->].
Qed.
