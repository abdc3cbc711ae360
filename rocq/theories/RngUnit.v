(** The f32 numbers drawn from 0..1 (Rng.v). *)
From stdpp Require Import base list.
From Coq Require Import NArith ZArith Reals Lra Lia.
From Flocq Require Import Core BinarySingleNaN.
From Verif Require Import Base Float FloatFacts JaccardFacts SuperMinHash SpecSuper SuperFloat MinHasher Rng SpecRng RngFacts.
Local Existing Instance Hprec32.
Local Instance fexp32_ok : Valid_exp fexp32 := FLT_exp_valid (emin 24 128) 24.

(** The real number k / 2^23. *)
Definition frac (k : N) : R := (IZR (Z.of_N k) / 8388608)%R.

Lemma frac_F2R k : frac k = F2R (Float radix2 (Z.of_N k) (-23)).
Proof. unfold frac, F2R. cbn [Fnum Fexp bpow]. unfold Rdiv. do 2 f_equal. Qed.

Lemma frac_format k : (k < 2 ^ 24)%N -> generic_format radix2 fexp32 (frac k).
Proof.
  intros Hk. rewrite frac_F2R. apply (generic_format_FLT radix2 (emin 24 128) 24).
  apply (FLT_spec radix2 (emin 24 128) 24 _ (Float radix2 (Z.of_N k) (-23))); [done| |done].
  cbn [Fnum]. rewrite Z.abs_eq by lia. change (Zpower radix2 24) with (2 ^ 24)%Z. lia.
Qed.

Lemma frac_round k : (k < 2 ^ 24)%N -> round radix2 fexp32 ZnearestE (frac k) = frac k.
Proof. intros Hk. apply round_generic; [typeclasses eauto|by apply frac_format]. Qed.

Lemma frac_bound k : (k < 2 ^ 23)%N -> (0 <= frac k < 1)%R.
Proof.
  intros Hk. unfold frac. assert (0 <= IZR (Z.of_N k))%R by (apply IZR_le; lia).
  assert (IZR (Z.of_N k) < 8388608)%R by (apply IZR_lt; lia). lra.
Qed.

Lemma frac_abs k : (k < 2 ^ 23)%N -> (Rabs (frac k) < bpow radix2 128)%R.
Proof.
  intros Hk. pose proof (frac_bound k Hk). rewrite Rabs_pos_eq by lra.
  apply Rlt_trans with 1%R; [lra|]. change 1%R with (bpow radix2 0). apply bpow_lt. lia.
Qed.

Lemma one_two k : (k < 2 ^ 23)%N ->
  good32 (S754_finite false (N.succ_pos (k + 8388607)) (-23)) (1 + frac k)%R.
Proof.
  intros Hk. assert (Hp : Zpos (N.succ_pos (k + 8388607)) = (Z.of_N k + 8388608)%Z).
  { pose proof (N.succ_pos_spec (k + 8388607)). lia. }
  split; [|split; [done|]].
  - cbn [valid_binary bounded]. unfold bounded. apply andb_true_intro. split; [|done].
    unfold canonical_mantissa. apply Zeq_bool_true.
    rewrite Digits.Zpos_digits2_pos. rewrite Hp.
    assert (Digits.Zdigits radix2 (Z.of_N k + 8388608) = 24)%Z as ->; [|reflexivity].
    apply Digits.Zdigits_unique. rewrite Z.abs_eq by lia.
    change (Zpower radix2 (24 - 1)) with 8388608%Z. change (Zpower radix2 24) with 16777216%Z. lia.
  - cbn [SF2R]. unfold cond_Zopp, F2R. cbn [Fnum Fexp bpow]. rewrite Hp, plus_IZR. unfold frac.
    change (Z.pow_pos radix2 23) with 8388608%Z. field.
Qed.

Lemma one_good32 : good32 f32_one 1.
Proof. exact (good_of_N32 1 ltac:(lia)). Qed.
Lemma zero_good32 : good32 (f32_of_N 0) 0.
Proof. exact (good_of_N32 0 ltac:(lia)). Qed.

Lemma unit_of_word_good v : (v < 2 ^ 32)%N -> good32 (unit_of_word v) (frac (v / 512)).
Proof.
  intros Hv. assert (Hk : (v / 512 < 2 ^ 23)%N) by (by apply N.div_lt_upper_bound).
  unfold unit_of_word. rewrite N.shiftr_div_pow2. change (2 ^ 9)%N with 512%N.
  generalize dependent (v / 512)%N. intros k Hk. clear Hv.
  pose proof (frac_round k ltac:(lia)) as Hround. pose proof (frac_abs k Hk) as Habs.
  assert (H1 : good32 (SFsub 24 128 (S754_finite false (N.succ_pos (k + 8388607)) (-23)) f32_one) (frac k)).
  { rewrite <- Hround. replace (frac k) with (1 + frac k - 1)%R by lra.
    apply (good_sub 24 128 Hprec32 Hemax32); [by apply one_two|apply one_good32|].
    replace (1 + frac k - 1)%R with (frac k) by lra. by rewrite Hround. }
  assert (H2 : good32 (SFmul 24 128 (SFsub 24 128 (S754_finite false (N.succ_pos (k + 8388607)) (-23)) f32_one) f32_one) (frac k)).
  { rewrite <- Hround. replace (frac k) with (frac k * 1)%R by lra.
    apply (good_mul 24 128 Hprec32 Hemax32); [done|apply one_good32|].
    rewrite Rmult_1_r. by rewrite Hround. }
  rewrite <- Hround. replace (frac k) with (frac k + 0)%R by lra.
  apply good_add32; [done|apply zero_good32|]. rewrite Rplus_0_r. by rewrite Hround.
Qed.

Lemma good32_unique x y r : good32 x r -> good32 y r -> r ≠ 0%R -> x = y.
Proof.
  intros (bx & -> & Hfx & Hx)%good_B (by_ & -> & Hfy & Hy)%good_B Hr. f_equal.
  apply B2R_inj; [| |congruence].
  - destruct bx; cbn in *; congruence || done.
  - destruct by_; cbn in *; congruence || done.
Qed.

Lemma frac_zero k : frac k = 0%R -> k = 0%N.
Proof.
  unfold frac. intros H. assert (IZR (Z.of_N k) = 0)%R by lra. apply eq_IZR in H0. lia.
Qed.

Lemma frac_inj k k' : frac k = frac k' -> k = k'.
Proof. unfold frac. intros H. assert (E : IZR (Z.of_N k) = IZR (Z.of_N k')) by lra. apply eq_IZR in E. lia. Qed.

Lemma unit_frac_good k : (k < 2 ^ 23)%N -> good32 (unit_frac k) (frac k).
Proof.
  intros Hk. rewrite <- (frac_round k) by lia. unfold unit_frac.
  assert (E : (IZR (Z.of_N k) / IZR (Z.of_N 8388608))%R = frac k) by done.
  rewrite <- E. apply (good_div 24 128 Hprec32 Hemax32).
  - apply good_of_N32. lia.
  - apply good_of_N32. lia.
  - change (Z.of_N 8388608) with 8388608%Z. lra.
  - rewrite E, frac_round by lia. by apply frac_abs.
Qed.

Lemma unit_of_word_zero v : (v / 512 = 0)%N -> unit_of_word v = S754_zero false.
Proof.
  intros Hv. unfold unit_of_word. rewrite N.shiftr_div_pow2. change (2 ^ 9)%N with 512%N. rewrite Hv.
  by vm_compute.
Qed.

Lemma unit_of_word_frac v : (v < 2 ^ 32)%N -> unit_of_word v = unit_frac (v / 512).
Proof.
  intros Hv. assert (Hk : (v / 512 < 2 ^ 23)%N) by (by apply N.div_lt_upper_bound).
  destruct (decide (v / 512 = 0)%N) as [E|E].
  - rewrite unit_of_word_zero by done. rewrite E. by vm_compute.
  - eapply good32_unique; [by apply unit_of_word_good|by apply unit_frac_good|].
    intros H%frac_zero. done.
Qed.

Lemma unit_of_word_unit v : (v < 2 ^ 32)%N -> is_unit (unit_of_word v).
Proof.
  intros Hv. assert (Hk : (v / 512 < 2 ^ 23)%N) by (by apply N.div_lt_upper_bound).
  pose proof (unit_of_word_good v Hv) as Hg. pose proof (frac_bound _ Hk) as [H0 H1].
  split; [apply Hg|]. split; [|split].
  - apply (good_leb 24 128 _ _ _ _ zero_good32 Hg). lra.
  - apply (good_ltb 24 128 _ _ _ _ Hg one_good32). lra.
  - destruct (decide (v / 512 = 0)%N) as [E|E]; [by rewrite unit_of_word_zero|].
    intros Hz. rewrite Hz in Hg. destruct Hg as (_ & _ & Hr). cbn in Hr. symmetry in Hr.
    by apply frac_zero in Hr.
Qed.

Lemma unit_fair k : (k < 2 ^ 23)%N ->
  exists l : list N, NoDup l /\ length l = 512 /\ forall v, v ∈ l <-> (v < 2 ^ 32)%N /\ unit_of_word v = unit_frac k.
Proof.
  intros Hk. exists ((fun i => 512 * k + N.of_nat i)%N <$> seq 0 512). split; [|split].
  - apply NoDup_fmap_2; [|apply NoDup_seq]. intros i j. lia.
  - by rewrite fmap_length, seq_length.
  - intros v. rewrite elem_of_list_fmap. split.
    + intros (i & -> & Hi%elem_of_seq). assert (Hv : (512 * k + N.of_nat i < 2 ^ 32)%N) by lia. split; [done|].
      rewrite unit_of_word_frac by done. f_equal. rewrite N.mul_comm, N.div_add_l by done.
      rewrite N.div_small by lia. lia.
    + intros [Hv E]. rewrite unit_of_word_frac in E by done.
      assert (Hv' : (v / 512 < 2 ^ 23)%N) by (by apply N.div_lt_upper_bound).
      assert (Ek : (v / 512)%N = k).
      { apply frac_inj. destruct (unit_frac_good _ Hv') as (_ & _ & <-).
        destruct (unit_frac_good _ Hk) as (_ & _ & <-). by rewrite E. }
      exists (N.to_nat (v mod 512)). rewrite elem_of_seq.
      pose proof (N.div_mod v 512 ltac:(done)). pose proof (N.mod_lt v 512 ltac:(done)).
      generalize dependent (v mod 512)%N. rewrite Ek. intros. split; lia.
Qed.

(** *** What SuperMinHash draws *)
Local Open Scope nat_scope.
Lemma v1_draws_ok fuel seed m p us : v1_draws fuel seed m = Some (p, us) ->
  p ≡ₚ (N.of_nat <$> seq 0 m) /\ length us = m /\ Forall is_unit us.
Proof.
  unfold v1_draws. destruct (shuffle std_next fuel _ _) as [[p' r1]|] eqn:E1; [|done]. cbn [mbind option_bind].
  destruct (repeat_draw _ m r1) as [[us' r2]|] eqn:E2; [|done]. cbn [mbind option_bind]. intros [= -> ->].
  unfold shuffle in E1. apply (shuffle_from_exchanges std_next words_ok std_next_ok) in E1 as [(ks & _ & ->) Hr]; [|apply seed_ok].
  split; [apply exchanges_perm|].
  destruct (repeat_draw_forall words_ok (fun r => Some (unit_sample std_next r)) is_unit) with (n := m) (r := r1) (xs := us) (r' := r2)
    as (H1 & H2 & _); [|done|done|done].
  intros r x r' Hr' [= E]. unfold unit_sample in E. pose proof (std_next_ok r Hr') as [Hw Hok].
  destruct (std_next r) as [w r3]. cbn [fst snd] in *. simplify_eq. split; [by apply unit_of_word_unit|done].
Qed.

Lemma v2_draws_from_ok fuel m n : forall j r l, words_ok r -> (j + n <= m) ->
  v2_draws_from fuel n m j r = Some l ->
  length l = n /\ forall i u k, l !! i = Some (u, k) -> is_unit u /\ (N.of_nat (j + i) <= k < N.of_nat m)%N.
Proof.
  induction n as [|n IH]; intros j r l Hr Hj E; cbn [v2_draws_from] in E.
  { simplify_eq. split; [done|]. intros i u k H. by rewrite lookup_nil in H. }
  unfold unit_sample in E. pose proof (std_next_ok r Hr) as [Hw Hok]. destruct (std_next r) as [w r1]. cbn [fst snd] in *.
  destruct (uniform_sample _ _ _ _ _ r1) as [[k r2]|] eqn:E1; [|done]. cbn [mbind option_bind] in E.
  apply (sample_range std_next words_ok std_next_ok) in E1 as [Hk Hr2]; [|lia|by right|done].
  destruct (v2_draws_from fuel n m (S j) r2) as [rest|] eqn:E2; [|done]. cbn [mbind option_bind] in E. simplify_eq.
  apply IH in E2 as [Hl Hrest]; [|done|lia]. split; [cbn; by f_equal|].
  intros [|i] u k' H; cbn [lookup list_lookup] in H.
  - simplify_eq. split; [by apply unit_of_word_unit|]. lia.
  - destruct (Hrest i u k' H) as [H1 H2]. split; [done|]. lia.
Qed.

Lemma v2_draws_ok fuel seed m l : v2_draws fuel seed m = Some l ->
  length l = m /\ forall j u k, l !! j = Some (u, k) -> is_unit u /\ (N.of_nat j <= k < N.of_nat m)%N.
Proof. intros E. apply v2_draws_from_ok in E; [done|apply seed_ok|lia]. Qed.

Lemma zero_unit : is_unit (f32_of_N 0).
Proof. split; [reflexivity|]. split; [reflexivity|]. split; [reflexivity|]. by vm_compute. Qed.

Lemma std_v1_ok fuel m : (forall t, std_shuffle fuel t m ≡ₚ (N.of_nat <$> seq 0 m)) /\
  (forall t j, is_unit (std_unit1 fuel t m j)).
Proof.
  split.
  - intros t. unfold std_shuffle. destruct (v1_draws fuel t m) as [[p us]|] eqn:E; [|done].
    exact (proj1 (v1_draws_ok _ _ _ _ _ E)).
  - intros t j. unfold std_unit1. destruct (v1_draws fuel t m) as [[p us]|] eqn:E; [|apply zero_unit].
    apply v1_draws_ok in E as (_ & _ & Hf). destruct (us !! j) as [u|] eqn:Ej; [|apply zero_unit].
    exact (Forall_lookup_1 _ _ _ _ Hf Ej).
Qed.

Lemma std_v2_ok fuel m : (forall t j, j < m -> j <= std_pick fuel t m j < m) /\
  (forall t j, is_unit (std_unit2 fuel t m j)).
Proof.
  split.
  - intros t j Hj. unfold std_pick. destruct (v2_draws fuel t m) as [l|] eqn:E; [|done].
    apply v2_draws_ok in E as [_ Hl]. destruct (l !! j) as [[u k]|] eqn:Ej; [|done].
    destruct (Hl _ _ _ Ej). cbn. lia.
  - intros t j. unfold std_unit2. destruct (v2_draws fuel t m) as [l|] eqn:E; [|apply zero_unit].
    apply v2_draws_ok in E as [_ Hl]. destruct (l !! j) as [[u k]|] eqn:Ej; [|apply zero_unit].
    by destruct (Hl _ _ _ Ej).
Qed.

Lemma std_super fuel m :
  (forall t, std_shuffle fuel t m ≡ₚ (N.of_nat <$> seq 0 m)) /\ (forall t j, is_unit (std_unit1 fuel t m j)) /\
  (forall t j, j < m -> j <= std_pick fuel t m j < m) /\ (forall t j, is_unit (std_unit2 fuel t m j)).
Proof.
  destruct (std_v1_ok fuel m) as [H1 H2]. destruct (std_v2_ok fuel m) as [H3 H4].
  split; [exact H1|]. split; [exact H2|]. split; [exact H3|exact H4].
Qed.
