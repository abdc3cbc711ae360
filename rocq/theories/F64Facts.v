(** binary64 instances of FloatFacts.v, and the order of f64 values. *)
From Coq Require Import ZArith Reals Psatz Bool.
From Flocq Require Import Core BinarySingleNaN.
From Verif Require Import Float FloatFacts.

Definition Hprec64 : Prec_gt_0 53 := eq_refl.
Definition Hemax64 : Prec_lt_emax 53 1024 := eq_refl.

(** Round to nearest even in binary64. *)
Notation rnd64 := (round radix2 (FLT_exp (-1074) 53) ZnearestE).
Notation good64 := (good 53 1024).

Lemma fexp64 : SpecFloat.fexp 53 1024 = FLT_exp (-1074) 53.
Proof. reflexivity. Qed.

Lemma of_N_good n : (n <= 2 ^ 53)%N -> good64 (f64_of_N n) (IZR (Z.of_N n)).
Proof. intros Hn. apply (good_of_Z 53 1024 Hprec64 Hemax64); lia. Qed.

Lemma one_good : good64 f64_one 1.
Proof. apply (of_N_good 1). lia. Qed.

Lemma good64_inj x y r : r <> 0%R -> good64 x r -> good64 y r -> x = y.
Proof.
  intros Hr (bx & -> & Hfx & Hx)%good_B (by_ & -> & Hfy & Hy)%good_B. f_equal.
  apply B2R_inj.
  - destruct bx; simpl in *; congruence.
  - destruct by_; simpl in *; congruence.
  - congruence.
Qed.

(** *** Order of valid non-NaN values: an embedding into the reals *)
Definition key64 (x : f64) : R :=
  match x with
  | S754_infinity false => bpow radix2 1025
  | S754_infinity true => (- bpow radix2 1025)%R
  | _ => SF2R radix2 x
  end.

Lemma key64_bound x : f64_valid x = true -> is_finite_SF x = true ->
  (- bpow radix2 1025 < SF2R radix2 x < bpow radix2 1025)%R.
Proof.
  intros Hv Hf. pose proof (abs_B2R_lt_emax 53 1024 (SF2B x Hv)) as Hb.
  rewrite B2R_SF2B in Hb. apply Rabs_lt_inv in Hb.
  assert (bpow radix2 1024 < bpow radix2 1025)%R by (apply bpow_lt; lia). lra.
Qed.

Lemma cmp_key64 x y :
  f64_valid x = true -> f64_valid y = true -> f64_is_nan x = false -> f64_is_nan y = false ->
  SFcompare x y = Some (Rcompare (key64 x) (key64 y)).
Proof.
  intros Hx Hy Nx Ny.
  assert (Hpos : (0 < bpow radix2 1025)%R) by apply bpow_gt_0.
  assert (Hg : forall z, f64_valid z = true -> is_finite_SF z = true ->
            good64 z (SF2R radix2 z)) by (intros; split; auto).
  destruct (is_finite_SF x) eqn:Fx; destruct (is_finite_SF y) eqn:Fy.
  - replace (key64 x) with (SF2R radix2 x) by (destruct x; try discriminate; reflexivity).
    replace (key64 y) with (SF2R radix2 y) by (destruct y; try discriminate; reflexivity).
    apply (good_compare 53 1024); auto.
  - pose proof (key64_bound x Hx Fx).
    replace (key64 x) with (SF2R radix2 x) by (destruct x; try discriminate; reflexivity).
    destruct y as [|[|]| |]; try discriminate; cbn [key64].
    + rewrite Rcompare_Gt by lra. destruct x as [| | |[|]]; try discriminate; reflexivity.
    + rewrite Rcompare_Lt by lra. destruct x as [| | |[|]]; try discriminate; reflexivity.
  - pose proof (key64_bound y Hy Fy).
    replace (key64 y) with (SF2R radix2 y) by (destruct y; try discriminate; reflexivity).
    destruct x as [|[|]| |]; try discriminate; cbn [key64].
    + rewrite Rcompare_Lt by lra. destruct y as [| | |[|]]; try discriminate; reflexivity.
    + rewrite Rcompare_Gt by lra. destruct y as [| | |[|]]; try discriminate; reflexivity.
  - destruct x as [|[|]| |]; try discriminate; destruct y as [|[|]| |]; try discriminate;
      cbn [key64 SFcompare];
      first [rewrite Rcompare_Eq by lra; reflexivity|rewrite Rcompare_Lt by lra; reflexivity
            |rewrite Rcompare_Gt by lra; reflexivity].
Qed.

Lemma gt_not_nan x y : f64_gt x y = true -> f64_is_nan x = false /\ f64_is_nan y = false.
Proof.
  unfold f64_gt, SFltb. destruct x, y; simpl; auto; discriminate.
Qed.

Lemma ge_not_nan x y : f64_ge x y = true -> f64_is_nan x = false /\ f64_is_nan y = false.
Proof.
  unfold f64_ge, SFleb. destruct x, y; simpl; auto; discriminate.
Qed.

Lemma ge_key x y : f64_valid x = true -> f64_valid y = true ->
  f64_is_nan x = false -> f64_is_nan y = false ->
  f64_ge x y = true <-> (key64 y <= key64 x)%R.
Proof.
  intros. unfold f64_ge, SFleb. rewrite cmp_key64 by assumption.
  destruct (Rcompare_spec (key64 y) (key64 x)); split; intros; try reflexivity; try discriminate; lra.
Qed.

Lemma gt_key x y : f64_valid x = true -> f64_valid y = true ->
  f64_is_nan x = false -> f64_is_nan y = false ->
  f64_gt x y = true <-> (key64 y < key64 x)%R.
Proof.
  intros. unfold f64_gt, SFltb. rewrite cmp_key64 by assumption.
  destruct (Rcompare_spec (key64 y) (key64 x)); split; intros; try reflexivity; try discriminate; lra.
Qed.

(** Quotients of unsigned integers are genuine floats. *)
Lemma div_valid a b : f64_valid (f64_div (f64_of_N a) (f64_of_N b)) = true.
Proof.
  unfold f64_div, f64_of_N, f64_valid.
  rewrite !(binary_normalize_equiv 53 1024 Hprec64 Hemax64), (SFdiv_B 53 1024 Hprec64 Hemax64).
  apply valid_binary_B2SF.
Qed.

Lemma one_sub_valid a b : f64_valid (f64_sub f64_one (f64_div (f64_of_N a) (f64_of_N b))) = true.
Proof.
  unfold f64_one, f64_sub, f64_div, f64_of_N, f64_valid.
  rewrite !(binary_normalize_equiv 53 1024 Hprec64 Hemax64), (SFdiv_B 53 1024 Hprec64 Hemax64),
    (SFsub_B 53 1024 Hprec64 Hemax64).
  apply valid_binary_B2SF.
Qed.

(** *** Quotients of counts *)
Lemma ratio64_good a n : (a <= n)%N -> (0 < n <= 2 ^ 53)%N ->
  good64 (f64_div (f64_of_N a) (f64_of_N n)) (rnd64 (IZR (Z.of_N a) / IZR (Z.of_N n))).
Proof. intros Ha Hn. apply (ratio_good 53 1024 Hprec64 Hemax64); lia. Qed.

Lemma coratio64_good a n : (a <= n)%N -> (0 < n <= 2 ^ 53)%N ->
  good64 (f64_sub f64_one (f64_div (f64_of_N a) (f64_of_N n)))
         (rnd64 (1 - rnd64 (IZR (Z.of_N a) / IZR (Z.of_N n)))).
Proof. intros Ha Hn. apply (coratio_good 53 1024 Hprec64 Hemax64); lia. Qed.

Lemma good64_not_nan x r : good64 x r -> f64_is_nan x = false.
Proof. intros (_ & Hf & _). destruct x; simpl in *; congruence. Qed.

Lemma ratio64_bounds a n : (a <= n)%N -> (0 < n)%N ->
  (0 <= rnd64 (IZR (Z.of_N a) / IZR (Z.of_N n)) <= 1)%R.
Proof.
  intros Ha Hn. apply (rnd_bound 53 1024 Hprec64 Hemax64); [lia..|].
  apply ratio_range; lia.
Qed.

Lemma ratio64_lt_one a n : (a < n)%N -> (n <= 2 ^ 53)%N ->
  (rnd64 (IZR (Z.of_N a) / IZR (Z.of_N n)) < 1)%R.
Proof. intros. apply (ratio_lt_one 53 1024 Hprec64 Hemax64); lia. Qed.

Lemma ratio64_one n : (0 < n)%N -> rnd64 (IZR (Z.of_N n) / IZR (Z.of_N n)) = 1%R.
Proof. intros. apply (ratio_one 53 1024 Hprec64 Hemax64); lia. Qed.

Lemma ratio64_lt a1 a2 n : (a1 <= n)%N -> (a2 <= n)%N -> (0 < n < 2 ^ 51)%N ->
  f64_lt (f64_div (f64_of_N a1) (f64_of_N n)) (f64_div (f64_of_N a2) (f64_of_N n)) = true
  <-> (a1 < a2)%N.
Proof.
  intros H1 H2 Hn.
  pose proof (ratio64_good a1 n H1 ltac:(lia)) as G1.
  pose proof (ratio64_good a2 n H2 ltac:(lia)) as G2.
  unfold f64_lt. rewrite (good_ltb 53 1024 _ _ _ _ G1 G2).
  etransitivity; [apply (ratio_lt_iff 53 1024 Hprec64 Hemax64); lia|]. lia.
Qed.

Lemma coratio64_lt a1 a2 n : (a1 <= n)%N -> (a2 <= n)%N -> (0 < n < 2 ^ 51)%N ->
  f64_lt (f64_sub f64_one (f64_div (f64_of_N a1) (f64_of_N n)))
         (f64_sub f64_one (f64_div (f64_of_N a2) (f64_of_N n))) = true
  <-> (a2 < a1)%N.
Proof.
  intros H1 H2 Hn.
  pose proof (coratio64_good a1 n H1 ltac:(lia)) as G1.
  pose proof (coratio64_good a2 n H2 ltac:(lia)) as G2.
  unfold f64_lt. rewrite (good_ltb 53 1024 _ _ _ _ G1 G2).
  etransitivity; [apply (coratio_lt_iff 53 1024 Hprec64 Hemax64); lia|]. lia.
Qed.

(** [buckets / ids < 1.0] iff [buckets < ids], for any counts up to 2^53. *)
Lemma ratio_lt_one_iff a n : (a <= 2 ^ 53)%N -> (n <= 2 ^ 53)%N ->
  f64_lt (f64_div (f64_of_N a) (f64_of_N n)) f64_one = true <-> (a < n)%N.
Proof.
  intros Ha Hn. destruct (N.eq_dec n 0) as [->|Hn0].
  - split; [|lia]. intros Hlt. exfalso. revert Hlt.
    destruct (N.eq_dec a 0) as [->|Ha0]; [vm_compute; discriminate|].
    pose proof (of_N_good a Ha) as (_ & Hf & Hr).
    destruct (f64_of_N a) as [s|s| |s m e] eqn:E; simpl in Hf; try discriminate.
    change (f64_of_N 0) with (S754_zero false). unfold f64_div, SFdiv.
    destruct s; simpl in Hr.
    + exfalso.
      assert (0 < IZR (Z.of_N a))%R by (apply IZR_lt; lia).
      assert (F2R (Float radix2 (Z.neg m) e) < 0)%R by (apply F2R_lt_0; reflexivity).
      simpl in *. lra.
    + vm_compute. discriminate.
  - destruct (N.lt_ge_cases a n) as [Hlt|Hge].
    + split; [auto|]. intros _. unfold f64_lt.
      apply (good_ltb 53 1024 _ _ _ _ (ratio64_good a n ltac:(lia) ltac:(lia)) one_good).
      apply ratio64_lt_one; lia.
    + split; [|lia]. intros Hlt. exfalso. revert Hlt.
      assert (Hn1 : (0 < IZR (Z.of_N n))%R) by (apply IZR_lt; lia).
      assert (Hle : (IZR (Z.of_N n) <= IZR (Z.of_N a))%R) by (apply IZR_le; lia).
      assert (Hge1 : (1 <= rnd64 (IZR (Z.of_N a) / IZR (Z.of_N n)))%R).
      { apply round_ge_generic.
        - apply (fexp_correct' 53 1024 Hprec64).
        - apply valid_rnd_N.
        - change 1%R with (bpow radix2 0). apply generic_format_bpow. unfold FLT_exp. lia.
        - apply Rmult_le_reg_r with (IZR (Z.of_N n)); [assumption|].
          unfold Rdiv. rewrite Rmult_assoc, Rinv_l by lra. lra. }
      assert (Hle2 : (rnd64 (IZR (Z.of_N a) / IZR (Z.of_N n)) <= bpow radix2 53)%R).
      { apply round_le_generic.
        - apply (fexp_correct' 53 1024 Hprec64).
        - apply valid_rnd_N.
        - apply generic_format_bpow. unfold FLT_exp. lia.
        - apply Rmult_le_reg_r with (IZR (Z.of_N n)); [assumption|].
          unfold Rdiv. rewrite Rmult_assoc, Rinv_l, Rmult_1_r by lra.
          apply Rle_trans with (bpow radix2 53 * 1)%R.
          + rewrite Rmult_1_r. change (bpow radix2 53) with (IZR (2 ^ 53)). apply IZR_le. lia.
          + apply Rmult_le_compat_l; [apply bpow_ge_0|]. apply IZR_le. lia. }
      assert (G : good64 (f64_div (f64_of_N a) (f64_of_N n))
                    (rnd64 (IZR (Z.of_N a) / IZR (Z.of_N n)))).
      { apply (good_div 53 1024 Hprec64 Hemax64); try (apply of_N_good; lia); [lra|].
        rewrite Rabs_pos_eq by (apply Rle_trans with 1%R; [lra|exact Hge1]). eapply Rle_lt_trans; [exact Hle2|]. apply bpow_lt. lia. }
      unfold f64_lt. rewrite (good_ltb 53 1024 _ _ _ _ G one_good). apply Rle_not_lt. exact Hge1.
Qed.

Lemma ge_not_lt x y : f64_valid x = true -> f64_valid y = true ->
  f64_ge x y = true -> f64_lt x y = false.
Proof.
  intros Hx Hy Hge. destruct (ge_not_nan _ _ Hge) as [Nx Ny].
  apply ge_key in Hge; auto. apply not_true_iff_false. intros Hlt.
  change (f64_gt y x = true) in Hlt. apply gt_key in Hlt; auto. lra.
Qed.
