(** Rounding facts about the floats of Float.v, proved with Flocq.
    (Flocq declares no axioms of its own; it uses the standard library's reals.) *)
From Coq Require Import ZArith Reals Psatz Bool.
From Flocq Require Import Core BinarySingleNaN Relative.
From Verif Require Import Float.

Section Gen.
Variable prec emax : Z.
Context (Hprec : Prec_gt_0 prec) (Hemax : Prec_lt_emax prec emax).
Hypothesis prec3 : (3 < prec)%Z.
Hypothesis emax3 : (3 < emax)%Z.

Notation fexp := (SpecFloat.fexp prec emax).
Notation bf := (binary_float prec emax).
Notation rnd := (round radix2 fexp ZnearestE).

Local Instance fexp_correct' : Valid_exp fexp := FLT_exp_valid (emin prec emax) prec.
Local Instance fexp_monotone' : Monotone_exp fexp := FLT_exp_monotone (emin prec emax) prec.

Lemma round_nearest_even_equiv s m l :
  round_nearest_even m l = choice_mode mode_NE s m l.
Proof.
  case l; [reflexivity|intro c]. case c; [|reflexivity..].
  now simpl; unfold Round.cond_incr; case Z.even.
Qed.

Lemma binary_round_aux_equiv sx mx ex lx :
  SpecFloat.binary_round_aux prec emax sx mx ex lx
  = BinarySingleNaN.binary_round_aux prec emax mode_NE sx mx ex lx.
Proof.
  unfold SpecFloat.binary_round_aux, BinarySingleNaN.binary_round_aux.
  set (mrse' := shr_fexp _ _ _ _ _). case mrse'; intros mrs' e'; simpl.
  now rewrite (round_nearest_even_equiv sx).
Qed.

Lemma binary_round_equiv s m e :
  SpecFloat.binary_round prec emax s m e
  = BinarySingleNaN.binary_round prec emax mode_NE s m e.
Proof.
  unfold SpecFloat.binary_round, BinarySingleNaN.binary_round, shl_align_fexp.
  set (mez := shl_align _ _ _); case mez as [mz ez]. apply binary_round_aux_equiv.
Qed.

Lemma binary_normalize_equiv m e szero :
  SpecFloat.binary_normalize prec emax m e szero
  = B2SF (BinarySingleNaN.binary_normalize prec emax Hprec Hemax mode_NE m e szero).
Proof.
  case m as [|p|p]; simpl.
  - reflexivity.
  - rewrite B2SF_SF2B. apply binary_round_equiv.
  - rewrite B2SF_SF2B. apply binary_round_equiv.
Qed.

Lemma SFdiv_B (x y : bf) :
  SFdiv prec emax (B2SF x) (B2SF y) = B2SF (Bdiv mode_NE x y).
Proof.
  case x as [sx|sx| |sx mx ex Bx]; case y as [sy|sy| |sy my ey By];
    [now (trivial || simpl; case Bool.eqb)..|].
  simpl. rewrite B2SF_SF2B.
  set (melz := SFdiv_core_binary _ _ _ _ _ _). case melz as [[mz ez] lz].
  apply binary_round_aux_equiv.
Qed.

Lemma SFmul_B (x y : bf) :
  SFmul prec emax (B2SF x) (B2SF y) = B2SF (Bmult mode_NE x y).
Proof.
  case x as [sx|sx| |sx mx ex Bx]; case y as [sy|sy| |sy my ey By]; [now trivial..|].
  simpl. rewrite B2SF_SF2B. apply binary_round_aux_equiv.
Qed.

Lemma SFsub_B (x y : bf) :
  SFsub prec emax (B2SF x) (B2SF y) = B2SF (Bminus mode_NE x y).
Proof.
  case x as [sx|sx| |sx mx ex Bx]; case y as [sy|sy| |sy my ey By];
    [now (trivial || simpl; case Bool.eqb)..|].
  simpl. unfold Zminus. rewrite <- cond_Zopp_negb. apply binary_normalize_equiv.
Qed.

(** [good x r]: [x] is a genuine finite float whose real value is [r]. *)
Definition good (x : spec_float) (r : R) : Prop :=
  valid_binary prec emax x = true /\ is_finite_SF x = true /\ SF2R radix2 x = r.

Lemma good_B x r : good x r <-> exists b : bf, x = B2SF b /\ is_finite b = true /\ B2R b = r.
Proof.
  split.
  - intros (Hv & Hf & Hr). exists (SF2B x Hv).
    rewrite B2SF_SF2B, is_finite_SF2B, B2R_SF2B. auto.
  - intros (b & -> & Hf & Hr). split; [apply valid_binary_B2SF|].
    rewrite is_finite_SF_B2SF, SF2R_B2SF. auto.
Qed.

Lemma good_format x r : good x r -> generic_format radix2 fexp r.
Proof. intros (b & -> & Hf & <-)%good_B. apply generic_format_B2R. Qed.

Lemma good_compare x y rx ry :
  good x rx -> good y ry -> SFcompare x y = Some (Rcompare rx ry).
Proof.
  intros (bx & -> & Hfx & <-)%good_B (by_ & -> & Hfy & <-)%good_B.
  exact (Bcompare_correct _ _ bx by_ Hfx Hfy).
Qed.

Lemma good_leb x y rx ry :
  good x rx -> good y ry -> SFleb x y = true <-> (rx <= ry)%R.
Proof.
  intros Hx Hy. unfold SFleb. rewrite (good_compare _ _ _ _ Hx Hy).
  destruct (Rcompare_spec rx ry); split; intros; try reflexivity; try discriminate; lra.
Qed.

Lemma good_ltb x y rx ry :
  good x rx -> good y ry -> SFltb x y = true <-> (rx < ry)%R.
Proof.
  intros Hx Hy. unfold SFltb. rewrite (good_compare _ _ _ _ Hx Hy).
  destruct (Rcompare_spec rx ry); split; intros; try reflexivity; try discriminate; lra.
Qed.

Lemma rnd_bound x : (0 <= x <= 1)%R -> (0 <= rnd x <= 1)%R.
Proof.
  intros [H0 H1]. split.
  - apply round_ge_generic; auto with typeclass_instances. apply generic_format_0.
  - apply round_le_generic; auto with typeclass_instances.
    change 1%R with (bpow radix2 0). apply generic_format_bpow.
    unfold fexp, emin. lia.
Qed.

Lemma bpow_emax_gt2 : (2 < bpow radix2 emax)%R.
Proof.
  change 2%R with (bpow radix2 1). apply bpow_lt. lia.
Qed.

Lemma good_of_Z z : (0 <= z <= 2 ^ prec)%Z ->
  good (SpecFloat.binary_normalize prec emax z 0 false) (IZR z).
Proof.
  intros Hz. rewrite binary_normalize_equiv. apply good_B. eexists. split; [reflexivity|].
  pose proof (binary_normalize_correct prec emax Hprec Hemax mode_NE z 0 false) as H.
  cbv zeta in H.
  assert (Hx : F2R (Float radix2 z 0) = IZR z) by (unfold F2R; simpl; lra).
  rewrite Hx in H.
  assert (Hfmt : generic_format radix2 fexp (IZR z)).
  { apply generic_format_FLT. destruct (Z.eq_dec z (2 ^ prec)) as [->|Hne].
    - exists (Float radix2 1 prec).
      + unfold F2R. simpl. rewrite Rmult_1_l. rewrite <- (IZR_Zpower radix2) by lia. reflexivity.
      + simpl. change 1%Z with (Z.abs 1). simpl.
        apply Z.pow_gt_1; lia.
      + simpl. unfold emin. lia.
    - exists (Float radix2 z 0).
      + now rewrite Hx.
      + simpl. rewrite Z.abs_eq; lia.
      + simpl. unfold emin. lia. }
  rewrite round_generic in H; auto with typeclass_instances.
  rewrite Rlt_bool_true in H.
  - destruct H as (H1 & H2 & H3). auto.
  - rewrite Rabs_pos_eq by (apply IZR_le; lia).
    apply Rle_lt_trans with (IZR (2 ^ prec)); [apply IZR_le; lia|].
    rewrite (IZR_Zpower radix2) by lia.
    apply bpow_lt. exact Hemax.
Qed.

Lemma good_div x y rx ry :
  good x rx -> good y ry -> ry <> 0%R ->
  (Rabs (rnd (rx / ry)) < bpow radix2 emax)%R ->
  good (SFdiv prec emax x y) (rnd (rx / ry)).
Proof.
  intros (bx & -> & Hfx & <-)%good_B (by_ & -> & Hfy & <-)%good_B Hne Hb.
  rewrite SFdiv_B. apply good_B. eexists. split; [reflexivity|].
  pose proof (Bdiv_correct prec emax Hprec Hemax mode_NE bx by_ Hne) as H.
  rewrite Rlt_bool_true in H by exact Hb.
  destruct H as (H1 & H2 & _). rewrite H2. auto.
Qed.

Lemma good_sub x y rx ry :
  good x rx -> good y ry ->
  (Rabs (rnd (rx - ry)) < bpow radix2 emax)%R ->
  good (SFsub prec emax x y) (rnd (rx - ry)).
Proof.
  intros (bx & -> & Hfx & <-)%good_B (by_ & -> & Hfy & <-)%good_B Hb.
  rewrite SFsub_B. apply good_B. eexists. split; [reflexivity|].
  pose proof (Bminus_correct prec emax Hprec Hemax mode_NE bx by_ Hfx Hfy) as H.
  rewrite Rlt_bool_true in H by exact Hb.
  destruct H as (H1 & H2 & _). auto.
Qed.

Lemma good_mul x y rx ry :
  good x rx -> good y ry ->
  (Rabs (rnd (rx * ry)) < bpow radix2 emax)%R ->
  good (SFmul prec emax x y) (rnd (rx * ry)).
Proof.
  intros (bx & -> & Hfx & <-)%good_B (by_ & -> & Hfy & <-)%good_B Hb.
  rewrite SFmul_B. apply good_B. eexists. split; [reflexivity|].
  pose proof (Bmult_correct prec emax Hprec Hemax mode_NE bx by_) as H.
  rewrite Rlt_bool_true in H by exact Hb.
  destruct H as (H1 & H2 & _). rewrite H2, Hfx, Hfy. auto.
Qed.

(** The rounded quotient of two counts [m <= n]. *)
Definition ratio (m n : Z) : spec_float :=
  SFdiv prec emax (SpecFloat.binary_normalize prec emax m 0 false)
                  (SpecFloat.binary_normalize prec emax n 0 false).

Lemma ratio_range m n : (0 <= m <= n)%Z -> (0 < n)%Z -> (0 <= IZR m / IZR n <= 1)%R.
Proof.
  intros Hm Hn. assert (0 < IZR n)%R by (apply IZR_lt; lia).
  assert (0 <= IZR m)%R by (apply IZR_le; lia). assert (IZR m <= IZR n)%R by (apply IZR_le; lia).
  split.
  - apply Rmult_le_pos; [assumption|]. left. now apply Rinv_0_lt_compat.
  - apply Rmult_le_reg_r with (IZR n); [assumption|].
    unfold Rdiv. rewrite Rmult_assoc, Rinv_l, Rmult_1_r, Rmult_1_l by lra. assumption.
Qed.

Lemma ratio_good m n : (0 <= m <= n)%Z -> (0 < n <= 2 ^ prec)%Z ->
  good (ratio m n) (rnd (IZR m / IZR n)).
Proof.
  intros Hm Hn. unfold ratio.
  assert (0 < IZR n)%R by (apply IZR_lt; lia).
  apply good_div; [apply good_of_Z; lia|apply good_of_Z; lia|lra|].
  pose proof (rnd_bound _ (ratio_range m n Hm (proj1 Hn))) as [H0 H1].
  rewrite Rabs_pos_eq by assumption. pose proof bpow_emax_gt2. lra.
Qed.

(** Absolute rounding error on [0,1]. *)
Lemma rnd_error x : (0 <= x <= 1)%R -> (Rabs (rnd x - x) <= bpow radix2 (- prec))%R.
Proof.
  intros [H0 H1].
  apply Rle_trans with (/ 2 * ulp radix2 fexp x)%R.
  - apply error_le_half_ulp; auto with typeclass_instances.
  - assert (Hu : (ulp radix2 fexp x <= bpow radix2 (1 - prec))%R).
    { apply Rle_trans with (ulp radix2 fexp 1).
      - apply ulp_le_pos; auto with typeclass_instances.
      - right. change 1%R with (bpow radix2 0). rewrite ulp_bpow. f_equal.
        unfold SpecFloat.fexp, emin. lia. }
    replace (bpow radix2 (- prec)) with (/ 2 * bpow radix2 (1 - prec))%R.
    + lra.
    + replace (1 - prec)%Z with (1 + - prec)%Z by lia. rewrite bpow_plus.
      change (bpow radix2 1) with 2%R. lra.
Qed.

Lemma ratio_mono m1 m2 n : (0 < n)%Z -> (0 <= m1 <= m2)%Z ->
  (rnd (IZR m1 / IZR n) <= rnd (IZR m2 / IZR n))%R.
Proof.
  intros Hn Hm. apply round_le; auto with typeclass_instances.
  assert (0 < IZR n)%R by (apply IZR_lt; lia).
  apply Rmult_le_compat_r; [left; now apply Rinv_0_lt_compat|]. apply IZR_le; lia.
Qed.

Lemma bpow_np : (bpow radix2 prec * bpow radix2 (- prec) = 1)%R.
Proof. rewrite <- bpow_plus. now replace (prec + - prec)%Z with 0%Z by lia. Qed.

Lemma ratio_gap m1 m2 n : (0 <= m1 < m2)%Z -> (m2 <= n)%Z -> (0 < n < 2 ^ (prec - 2))%Z ->
  (rnd (IZR m1 / IZR n) + 2 * bpow radix2 (- prec) < rnd (IZR m2 / IZR n))%R.
Proof.
  intros Hm Hmn [Hn HnP].
  pose proof (rnd_error _ (ratio_range m1 n ltac:(lia) Hn)) as E1.
  pose proof (rnd_error _ (ratio_range m2 n ltac:(lia) Hn)) as E2.
  apply Rabs_le_inv in E1, E2.
  set (u := bpow radix2 (- prec)) in *.
  assert (Hn0 : (0 < IZR n)%R) by (apply IZR_lt; lia).
  assert (Hu : (4 * u * IZR n < 1)%R).
  { assert (IZR n < bpow radix2 (prec - 2))%R.
    { rewrite <- (IZR_Zpower radix2) by lia. now apply IZR_lt. }
    assert (0 < u)%R by apply bpow_gt_0.
    assert (4 * u * bpow radix2 (prec - 2) = 1)%R.
    { replace 4%R with (bpow radix2 2) by reflexivity. unfold u. rewrite <- !bpow_plus.
      now replace (2 + - prec + (prec - 2))%Z with 0%Z by lia. }
    apply Rlt_le_trans with (4 * u * bpow radix2 (prec - 2))%R; [|lra].
    apply Rmult_lt_compat_l; lra. }
  assert (Hd : (IZR m2 / IZR n - IZR m1 / IZR n >= 1 / IZR n)%R).
  { unfold Rdiv. rewrite <- Rmult_minus_distr_r. apply Rle_ge, Rmult_le_compat_r.
    - left; now apply Rinv_0_lt_compat.
    - rewrite <- minus_IZR. apply IZR_le. lia. }
  assert (4 * u < 1 / IZR n)%R.
  { apply Rmult_lt_reg_r with (IZR n); [assumption|].
    unfold Rdiv. rewrite (Rmult_assoc 1), Rinv_l by lra. lra. }
  lra.
Qed.

Lemma ratio_lt_iff m1 m2 n :
  (0 <= m1 <= n)%Z -> (0 <= m2 <= n)%Z -> (0 < n < 2 ^ (prec - 2))%Z ->
  (rnd (IZR m1 / IZR n) < rnd (IZR m2 / IZR n))%R <-> (m1 < m2)%Z.
Proof.
  intros H1 H2 Hn. split; intros H.
  - destruct (Z_lt_le_dec m1 m2) as [|Hle]; [assumption|].
    pose proof (ratio_mono m2 m1 n (proj1 Hn) ltac:(lia)). lra.
  - pose proof (ratio_gap m1 m2 n ltac:(lia) ltac:(lia) Hn).
    pose proof (bpow_gt_0 radix2 (- prec)). lra.
Qed.

Lemma ratio_one n : (0 < n)%Z -> rnd (IZR n / IZR n) = 1%R.
Proof.
  intros Hn. assert (0 < IZR n)%R by (apply IZR_lt; lia).
  replace (IZR n / IZR n)%R with 1%R by (field; lra).
  apply round_generic; auto with typeclass_instances.
  change 1%R with (bpow radix2 0). apply generic_format_bpow. unfold SpecFloat.fexp, emin. lia.
Qed.

(** The quotient is 1 only for equal counts (needs only [n <= 2^prec]). *)
Lemma ratio_lt_one m n : (0 <= m < n)%Z -> (n <= 2 ^ prec)%Z ->
  (rnd (IZR m / IZR n) < 1)%R.
Proof.
  intros Hm HnP.
  apply Rle_lt_trans with (1 - bpow radix2 (- prec))%R.
  2:{ pose proof (bpow_gt_0 radix2 (- prec)); lra. }
  assert (Hn0 : (0 < IZR n)%R) by (apply IZR_lt; lia).
  apply round_le_generic; auto with typeclass_instances.
  - replace (1 - bpow radix2 (- prec))%R with (F2R (Float radix2 (2 ^ prec - 1) (- prec))).
    + apply generic_format_FLT. exists (Float radix2 (2 ^ prec - 1) (- prec)); auto.
      * simpl. rewrite Z.abs_eq; [lia|]. pose proof (Z.pow_pos_nonneg 2 prec). lia.
      * simpl. unfold emin. lia.
    + unfold F2R. simpl. rewrite minus_IZR. change 2%Z with (radix_val radix2).
      rewrite IZR_Zpower by lia. rewrite Rmult_minus_distr_r, bpow_np. lra.
  - apply Rmult_le_reg_r with (IZR n); [assumption|].
    unfold Rdiv. rewrite Rmult_assoc, Rinv_l, Rmult_1_r by lra.
    rewrite Rmult_minus_distr_r.
    assert (bpow radix2 (- prec) * IZR n <= 1)%R.
    { rewrite <- bpow_np, (Rmult_comm (bpow radix2 prec)). apply Rmult_le_compat_l; [apply bpow_ge_0|].
      rewrite <- (IZR_Zpower radix2) by lia. now apply IZR_le. }
    assert (IZR m <= IZR n - 1)%R by (rewrite <- minus_IZR; apply IZR_le; lia).
    lra.
Qed.

Lemma good_one : good (SpecFloat.binary_normalize prec emax 1 0 false) 1.
Proof. apply good_of_Z. assert (2 ^ 1 <= 2 ^ prec)%Z by (apply Z.pow_le_mono_r; lia). lia. Qed.

(** [1.0 - m/n] *)
Definition coratio (m n : Z) : spec_float :=
  SFsub prec emax (SpecFloat.binary_normalize prec emax 1 0 false) (ratio m n).

Lemma coratio_good m n : (0 <= m <= n)%Z -> (0 < n <= 2 ^ prec)%Z ->
  good (coratio m n) (rnd (1 - rnd (IZR m / IZR n))).
Proof.
  intros Hm Hn. unfold coratio. apply good_sub; [apply good_one|now apply ratio_good|].
  pose proof (rnd_bound _ (ratio_range m n Hm (proj1 Hn))) as [H0 H1].
  pose proof (rnd_bound (1 - rnd (IZR m / IZR n)) ltac:(lra)) as [H2 H3].
  rewrite Rabs_pos_eq by assumption. pose proof bpow_emax_gt2. lra.
Qed.

Lemma coratio_lt_iff m1 m2 n :
  (0 <= m1 <= n)%Z -> (0 <= m2 <= n)%Z -> (0 < n < 2 ^ (prec - 2))%Z ->
  (rnd (1 - rnd (IZR m1 / IZR n)) < rnd (1 - rnd (IZR m2 / IZR n)))%R <-> (m2 < m1)%Z.
Proof.
  intros H1 H2 Hn.
  pose proof (rnd_bound _ (ratio_range m1 n H1 (proj1 Hn))) as [L1 U1].
  pose proof (rnd_bound _ (ratio_range m2 n H2 (proj1 Hn))) as [L2 U2].
  split; intros H.
  - destruct (Z_lt_le_dec m2 m1) as [|Hle]; [assumption|exfalso].
    apply Rlt_not_le in H. apply H. apply round_le; auto with typeclass_instances.
    pose proof (ratio_mono m1 m2 n (proj1 Hn) ltac:(lia)). lra.
  - pose proof (ratio_gap m2 m1 n ltac:(lia) ltac:(lia) Hn).
    pose proof (rnd_error (1 - rnd (IZR m1 / IZR n)) ltac:(lra)) as E1.
    pose proof (rnd_error (1 - rnd (IZR m2 / IZR n)) ltac:(lra)) as E2.
    apply Rabs_le_inv in E1, E2. lra.
Qed.

End Gen.
