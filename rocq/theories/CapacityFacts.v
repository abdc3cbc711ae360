(** Proofs about the band capacity of [new_with_capacity] (C88). *)
From Coq Require Import ZArith NArith Reals Psatz Bool.
From Flocq Require Import Core BinarySingleNaN.
From stdpp Require Import base.
From Verif Require Import Float Constructors FloatFacts F64Facts SimilarityThms.

(** The sign of a rounded number is the sign it was given. *)
Definition non_neg (x : f64) : bool :=
  match x with S754_infinity s | S754_finite s _ _ => negb s | _ => true end.
Definition non_pos (x : f64) : bool :=
  match x with S754_infinity s | S754_finite s _ _ => s | _ => true end.

Lemma round_aux_pos m e l : non_neg (SpecFloat.binary_round_aux 53 1024 false m e l) = true.
Proof.
  unfold SpecFloat.binary_round_aux. destruct (shr_fexp _ _ _ _ _) as [r e1].
  destruct (shr_fexp _ _ _ _ _) as [r' e2].
  destruct (shr_m r'); [reflexivity| |reflexivity]. destruct (_ <=? _)%Z; reflexivity.
Qed.
Lemma round_aux_neg m e l : non_pos (SpecFloat.binary_round_aux 53 1024 true m e l) = true.
Proof.
  unfold SpecFloat.binary_round_aux. destruct (shr_fexp _ _ _ _ _) as [r e1].
  destruct (shr_fexp _ _ _ _ _) as [r' e2].
  destruct (shr_m r'); [reflexivity| |reflexivity]. destruct (_ <=? _)%Z; reflexivity.
Qed.

Lemma of_N_non_neg n : non_neg (f64_of_N n) = true.
Proof.
  unfold f64_of_N. destruct n as [|p]; [reflexivity|]. cbn [Z.of_N SpecFloat.binary_normalize].
  unfold SpecFloat.binary_round. destruct (shl_align _ _ _). apply round_aux_pos.
Qed.

Lemma mul_non_pos x y : non_neg x = true -> non_pos y = true -> non_pos (f64_mul x y) = true.
Proof.
  unfold f64_mul. intros Hx Hy.
  destruct x as [s|s| |s m e]; try reflexivity; destruct y as [s'|s'| |s' m' e']; try reflexivity;
    cbn in Hx, Hy; try (apply negb_true_iff in Hx); subst; try reflexivity.
  cbn [SFmul xorb]. apply round_aux_neg.
Qed.

Lemma as_unsigned_non_pos max x : non_pos x = true -> f64_as_unsigned max x = 0%N.
Proof. destruct x as [s|s| |s m e]; cbn; try reflexivity; intros ->; reflexivity. Qed.

Lemma good_non_pos x r : good64 x r -> (r <= 0)%R -> non_pos x = true.
Proof.
  intros (_ & Hf & Hr) H0. destruct x as [s|s| |s m e]; cbn in Hf; try discriminate; try reflexivity.
  destruct s; [reflexivity|]. exfalso. cbn in Hr. unfold F2R in Hr. cbn in Hr.
  pose proof (bpow_gt_0 radix2 e). assert (0 < IZR (Zpos m))%R by (apply IZR_lt; lia). nra.
Qed.

Lemma sub_non_pos ratio : f64_valid ratio = true -> f64_ge ratio f64_one = true ->
  non_pos (f64_sub f64_one ratio) = true.
Proof.
  intros Hv Hge. destruct (ge_not_nan _ _ Hge) as [Hn _].
  apply ge_key in Hge; [|exact Hv|reflexivity|exact Hn|reflexivity].
  assert (K1 : key64 f64_one = 1%R) by (destruct one_good as (_ & _ & E); exact E).
  rewrite K1 in Hge.
  destruct (is_finite_SF ratio) eqn:Hf.
  - assert (Hg : good64 ratio (SF2R radix2 ratio)) by (repeat split; assumption).
    assert (K2 : key64 ratio = SF2R radix2 ratio) by (destruct ratio; try discriminate; reflexivity).
    rewrite K2 in Hge. set (r := SF2R radix2 ratio) in *.
    assert (Hle : (- r <= rnd64 (1 - r) <= 0)%R).
    { split.
      - apply round_ge_generic; [apply FLT_exp_valid; reflexivity|apply valid_rnd_N| |lra].
        apply generic_format_opp. exact (good_format 53 1024 ratio r Hg).
      - apply round_le_generic; [apply FLT_exp_valid; reflexivity|apply valid_rnd_N| |lra].
        apply generic_format_0. }
    apply good_non_pos with (rnd64 (1 - r)); [|lra].
    apply (good_sub 53 1024 Hprec64 Hemax64 _ _ _ _ one_good Hg).
    pose proof (abs_B2R_lt_emax 53 1024 (SF2B ratio Hv)) as Hb. rewrite B2R_SF2B in Hb.
    fold r in Hb. rewrite Rabs_pos_eq in Hb by lra.
    rewrite fexp64. rewrite Rabs_left1 by lra. lra.
  - destruct ratio as [s|s| |s m e]; try discriminate. cbn [key64] in Hge.
    destruct s; [|reflexivity]. exfalso. pose proof (bpow_gt_0 radix2 1025). lra.
Qed.

Lemma capacity_ratio_ge_one W cap ratio : f64_valid ratio = true -> f64_ge ratio f64_one = true ->
  band_capacity W cap ratio = 0%N.
Proof.
  intros Hv Hge. apply as_unsigned_non_pos, mul_non_pos; [apply of_N_non_neg|].
  apply sub_non_pos; assumption.
Qed.

Lemma capacity_nan W cap : band_capacity W cap S754_nan = 0%N.
Proof. unfold band_capacity. destruct (f64_of_N cap) as [s|s| |s m e]; reflexivity. Qed.

(** Rounding error of numbers up to [2^52]. *)
Lemma rnd_error_52 x : (0 <= x <= IZR (2 ^ 52))%R -> (Rabs (rnd64 x - x) <= / 2)%R.
Proof.
  intros [H0 H1]. rewrite <- (Rmult_1_r (/ 2)).
  apply Rle_trans with (/ 2 * ulp radix2 (FLT_exp (-1074) 53) x)%R.
  - apply error_le_half_ulp; apply FLT_exp_valid; reflexivity.
  - apply Rmult_le_compat_l; [lra|].
    apply Rle_trans with (ulp radix2 (FLT_exp (-1074) 53) (IZR (2 ^ 52))).
    + apply ulp_le_pos; [apply FLT_exp_valid; reflexivity|apply FLT_exp_monotone|exact H0|exact H1].
    + right. change (IZR (2 ^ 52)) with (bpow radix2 52). rewrite ulp_bpow. reflexivity.
Qed.

Lemma one_sub_good ratio r : good64 ratio r -> (0 <= r <= 1)%R ->
  good64 (f64_sub f64_one ratio) (rnd64 (1 - r)) /\ (0 <= rnd64 (1 - r) <= 1)%R.
Proof.
  intros Hg Hr. pose proof (rnd_bound 53 1024 Hprec64 eq_refl eq_refl (1 - r)%R ltac:(lra)) as Hb.
  split; [|exact Hb]. apply (good_sub 53 1024 Hprec64 Hemax64 _ _ _ _ one_good Hg).
  rewrite Rabs_pos_eq by lra. pose proof (bpow_emax_gt2 1024 eq_refl). lra.
Qed.

Lemma capacity_floor W cap ratio r :
  (cap <= 2 ^ 53)%N -> (cap < 2 ^ N.of_nat W)%N -> good64 ratio r -> (0 <= r <= 1)%R ->
  let v := rnd64 (IZR (Z.of_N cap) * rnd64 (1 - r)) in
  band_capacity W cap ratio = Z.to_N (Zfloor v) /\ (0 <= v <= IZR (Z.of_N cap))%R.
Proof.
  intros Hc HW Hg Hr v. destruct (one_sub_good ratio r Hg Hr) as [Hs Hb].
  pose proof (of_N_good cap Hc) as Hcap.
  assert (Hc0 : (0 <= IZR (Z.of_N cap))%R) by (apply IZR_le; lia).
  assert (Hv : (0 <= v <= IZR (Z.of_N cap))%R).
  { split.
    - apply round_ge_generic; [apply FLT_exp_valid; reflexivity|apply valid_rnd_N|apply generic_format_0|nra].
    - apply round_le_generic; [apply FLT_exp_valid; reflexivity|apply valid_rnd_N| |nra].
      exact (good_format 53 1024 _ _ Hcap). }
  split; [|exact Hv].
  assert (Hm : good64 (f64_mul (f64_of_N cap) (f64_sub f64_one ratio)) v).
  { apply (good_mul 53 1024 Hprec64 Hemax64 _ _ _ _ Hcap Hs). rewrite fexp64. fold v.
    rewrite Rabs_pos_eq by lra. apply Rle_lt_trans with (IZR (Z.of_N cap)); [lra|].
    apply Rle_lt_trans with (bpow radix2 53); [|apply bpow_lt; lia].
    change (bpow radix2 53) with (IZR (2 ^ 53)). apply IZR_le. lia. }
  unfold band_capacity. rewrite (as_unsigned_floor _ _ v Hm) by lra.
  apply N.min_r. assert (Zfloor v <= Z.of_N cap)%Z.
  { apply le_IZR. apply Rle_trans with v; [apply Zfloor_lb|lra]. }
  lia.
Qed.

Lemma capacity_le W cap ratio r :
  (cap <= 2 ^ 53)%N -> (cap < 2 ^ N.of_nat W)%N -> good64 ratio r -> (0 <= r <= 1)%R ->
  (band_capacity W cap ratio <= cap)%N.
Proof.
  intros Hc HW Hg Hr. destruct (capacity_floor W cap ratio r Hc HW Hg Hr) as [-> Hv].
  set (v := rnd64 _) in *. clearbody v. assert (Zfloor v <= Z.of_N cap)%Z; [|lia].
  apply le_IZR. apply Rle_trans with v; [apply Zfloor_lb|lra].
Qed.

Lemma capacity_close W cap ratio r :
  (cap <= 2 ^ 52)%N -> (cap < 2 ^ N.of_nat W)%N -> good64 ratio r -> (0 <= r <= 1)%R ->
  let x := (IZR (Z.of_N cap) * (1 - r))%R in
  (x - 2 < IZR (Z.of_N (band_capacity W cap ratio)) <= x + 1)%R.
Proof.
  intros Hc HW Hg Hr x. assert (Hc' : (cap <= 2 ^ 53)%N).
  { apply N.le_trans with (2 ^ 52)%N; [exact Hc|]. apply N.pow_le_mono_r; lia. }
  destruct (capacity_floor W cap ratio r Hc' HW Hg Hr) as [-> Hv].
  destruct (one_sub_good ratio r Hg Hr) as [_ Hb].
  assert (Hcap : (0 <= IZR (Z.of_N cap) <= IZR (2 ^ 52))%R) by (split; apply IZR_le; lia).
  pose proof (rnd_error 53 1024 Hprec64 eq_refl (1 - r)%R ltac:(lra)) as He1. rewrite fexp64 in He1.
  assert (He2 : (Rabs (rnd64 (IZR (Z.of_N cap) * rnd64 (1 - r)) - IZR (Z.of_N cap) * rnd64 (1 - r)) <= / 2)%R).
  { apply rnd_error_52. nra. }
  set (t := rnd64 (1 - r)) in *. clearbody t. set (v := rnd64 _) in *. clearbody v.
  assert (Hbp : (bpow radix2 (- (53)) * IZR (2 ^ 52) = / 2)%R).
  { change (IZR (2 ^ 52)) with (bpow radix2 52). rewrite <- bpow_plus. reflexivity. }
  set (d := bpow radix2 (- (53))) in *.
  assert (Hd : (0 < d)%R) by apply bpow_gt_0. clearbody d.
  set (c := IZR (Z.of_N cap)) in *. set (M := IZR (2 ^ 52)) in *. clearbody M.
  apply Rabs_le_inv in He1. apply Rabs_le_inv in He2.
  assert (Hf : (v - 1 < IZR (Zfloor v) <= v)%R).
  { split; [|apply Zfloor_lb]. pose proof (Zfloor_ub v). lra. }
  assert (Hf0 : (0 <= Zfloor v)%Z) by (apply Zfloor_lub; apply Hv).
  rewrite Z2N.id by exact Hf0. unfold x.
  assert (c * (t - (1 - r)) <= / 2)%R by nra.
  assert (- / 2 <= c * (t - (1 - r)))%R by nra.
  assert (c * t - c * (1 - r) = c * (t - (1 - r)))%R by ring. lra.
Qed.

(** A ratio of minus infinity asks for the largest capacity there is. *)
Lemma capacity_neg_inf W cap : (0 < cap <= 2 ^ 53)%N ->
  band_capacity W cap (S754_infinity true) = (2 ^ N.of_nat W - 1)%N.
Proof.
  intros [H0 Hc]. unfold band_capacity. change (f64_sub f64_one (S754_infinity true)) with (S754_infinity false).
  pose proof (of_N_non_neg cap) as Hn. destruct (of_N_good cap Hc) as (_ & Hf & Hr).
  destruct (f64_of_N cap) as [s|s| |s m e]; cbn in Hf, Hn; try discriminate.
  - exfalso. cbn in Hr. apply (eq_IZR 0) in Hr. lia.
  - destruct s; [discriminate|reflexivity].
Qed.
