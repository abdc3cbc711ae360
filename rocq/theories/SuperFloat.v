(** f32 facts for SuperMinHash.v. *)
From stdpp Require Import base list.
From Coq Require Import NArith ZArith Reals Lra Lia.
From Flocq Require Import Core BinarySingleNaN.
From Verif Require Import Base Float FloatFacts JaccardFacts SuperMinHash SpecSuper.
Local Open Scope nat_scope.
Local Existing Instance Hprec32.

Notation fexp32 := (SpecFloat.fexp 24 128).
Local Instance fexp32_correct : Valid_exp fexp32 := FLT_exp_valid (emin 24 128) 24.

Lemma SFadd_B32 (x y : binary_float 24 128) :
  SFadd 24 128 (B2SF x) (B2SF y) = B2SF (@Bplus 24 128 Hprec32 Hemax32 mode_NE x y).
Proof.
  case x as [sx|sx| |sx mx ex Bx]; case y as [sy|sy| |sy my ey By];
    [now (trivial || simpl; case Bool.eqb)..|].
  simpl. apply binary_normalize_equiv.
Qed.

Lemma good_add32 x y rx ry :
  good32 x rx -> good32 y ry ->
  (Rabs (round radix2 fexp32 ZnearestE (rx + ry)) < bpow radix2 128)%R ->
  good32 (f32_add x y) (round radix2 fexp32 ZnearestE (rx + ry)).
Proof.
  intros (bx & -> & Hfx & <-)%good_B (by_ & -> & Hfy & <-)%good_B Hb.
  unfold f32_add. rewrite SFadd_B32. apply good_B. eexists. split; [reflexivity|].
  pose proof (Bplus_correct 24 128 Hprec32 Hemax32 mode_NE bx by_ Hfx Hfy) as H.
  rewrite Rlt_bool_true in H by exact Hb.
  destruct H as (H1 & H2 & _). auto.
Qed.

Lemma good_of_N32 n : (n <= 2 ^ 24)%N -> good32 (f32_of_N n) (IZR (Z.of_N n)).
Proof. intros Hn. apply (good_of_Z 24 128 Hprec32 Hemax32); lia. Qed.

Lemma unit_good r : is_unit r -> exists x, good32 r x /\ (0 <= x < 1)%R.
Proof.
  intros (Hv & H0 & H1 & _).
  assert (Hf : is_finite_SF r = true).
  { destruct r as [s|s| |s m e]; try done. destruct s; vm_compute in *; done. }
  assert (Hg : good32 r (SF2R radix2 r)) by (split; [done|split; done]).
  exists (SF2R radix2 r). split; [done|]. split.
  - by apply (good_leb 24 128 _ _ _ _ (good_of_N32 0 ltac:(lia)) Hg) in H0.
  - apply (good_ltb 24 128 _ _ _ _ Hg (good_of_N32 1 ltac:(lia))) in H1. done.
Qed.

Lemma unit_add_good r n : is_unit r -> (n < 2 ^ 24)%N ->
  exists x, good32 (f32_add r (f32_of_N n)) x /\ (IZR (Z.of_N n) <= x <= IZR (Z.of_N n + 1))%R /\
    (n = 0%N -> (x < 1)%R).
Proof.
  intros Hr Hn. destruct (unit_good r Hr) as (y & Hy & Hy0 & Hy1).
  pose proof (good_of_N32 n ltac:(lia)) as Hgn.
  set (x := round radix2 fexp32 ZnearestE (y + IZR (Z.of_N n))).
  assert (Hlo : (IZR (Z.of_N n) <= x)%R).
  { apply round_ge_generic; auto with typeclass_instances; [by eapply good_format|lra]. }
  assert (Hhi : (x <= IZR (Z.of_N n + 1))%R).
  { apply round_le_generic; auto with typeclass_instances.
    - pose proof (good_of_N32 (n + 1) ltac:(lia)) as Hg. apply good_format in Hg.
      by rewrite N2Z.inj_add in Hg.
    - rewrite plus_IZR. lra. }
  assert (Hpos : (0 <= IZR (Z.of_N n))%R) by (apply IZR_le; lia).
  exists x. split; [|split; [lra|]].
  - apply good_add32; [done|done|]. fold x. rewrite Rabs_pos_eq by lra.
    apply Rle_lt_trans with (IZR (2 ^ 24)).
    + eapply Rle_trans; [apply Hhi|]. apply IZR_le. lia.
    + rewrite (IZR_Zpower radix2) by lia. apply bpow_lt. lia.
  - intros ->. unfold x. rewrite Rplus_0_r. rewrite round_generic; auto with typeclass_instances.
    by eapply good_format.
Qed.

Lemma initial_good : good32 initial 100000000.
Proof.
  split; [by vm_compute|]. split; [by vm_compute|].
  assert (E : initial = S754_finite false 12500000 3) by (by vm_compute). rewrite E.
  cbn [SF2R]. unfold F2R. cbn [Fnum Fexp cond_Zopp]. rewrite <- IZR_Zpower by lia. rewrite <- mult_IZR. reflexivity.
Qed.

(** Truncation is rounding down. *)
Lemma trunc_floor max x r : good32 x r -> (0 <= r)%R ->
  f64_as_unsigned max x = N.min max (Z.to_N (Zfloor r)).
Proof.
  intros (Hv & Hf & <-) Hr. destruct x as [s|s| |s m e]; try done.
  - cbn [SF2R f64_as_unsigned]. rewrite Zfloor_IZR. symmetry. apply N.min_0_r.
  - destruct s.
    + exfalso. cbn [SF2R cond_Zopp] in Hr.
      assert (H : (F2R (Float radix2 (Z.neg m) e) < 0)%R) by (apply F2R_lt_0; cbn; lia).
      exact (Rlt_not_le _ _ H Hr).
    + cbn [SF2R cond_Zopp f64_as_unsigned]. f_equal. f_equal. unfold f64_trunc_abs, F2R. cbn [Fnum Fexp].
      destruct e as [|e|e].
      * cbn [bpow]. rewrite Rmult_1_r. by rewrite Zfloor_IZR.
      * rewrite <- IZR_Zpower by lia. rewrite <- mult_IZR, Zfloor_IZR. by rewrite Z.shiftl_mul_pow2 by lia.
      * rewrite Z.shiftr_div_pow2 by lia. cbn [bpow].
        rewrite <- (Zfloor_div (Z.pos m) (2 ^ (- Z.neg e))).
        -- cbn [Z.opp]. unfold Rdiv. f_equal. 
        -- cbn [Z.opp]. pose proof (Z.pow_pos_nonneg 2 (Z.pos e)). lia.
Qed.

(** ** The facts used, without real numbers *)
Definition nonneg (x : f32) : Prop := exists r, good32 x r /\ (0 <= r)%R.

Lemma initial_nonneg : nonneg initial.
Proof. exists 100000000%R. split; [apply initial_good|lra]. Qed.
Lemma initial_u32 : f32_as_u32 initial = 100000000%N.
Proof. by vm_compute. Qed.
Lemma initial_usize : f32_as_usize initial = 100000000%N.
Proof. by vm_compute. Qed.

Lemma lt_u32 x y : nonneg x -> nonneg y ->
  if f32_lt x y then (f32_as_u32 x <= f32_as_u32 y)%N else (f32_as_u32 y <= f32_as_u32 x)%N.
Proof.
  intros (rx & Hx & Hx0) (ry & Hy & Hy0). unfold f32_lt, f32_as_u32.
  rewrite (trunc_floor _ x rx), (trunc_floor _ y ry) by done.
  pose proof (good_ltb 24 128 _ _ _ _ Hx Hy) as Hl.
  destruct (SFltb x y).
  - assert (rx <= ry)%R by (apply Rlt_le; by apply Hl). apply Zfloor_le in H. lia.
  - assert (~ (rx < ry)%R) by (intros H; by apply Hl in H). apply Rnot_lt_le in H. apply Zfloor_le in H. lia.
Qed.

Lemma nonneg_not_nan x : nonneg x -> x ≠ S754_nan.
Proof. intros (r & (_ & H & _) & _) ->. done. Qed.

Lemma min_u32 x y : nonneg x -> nonneg y ->
  nonneg (f32_min x y) /\ f32_as_u32 (f32_min x y) = N.min (f32_as_u32 x) (f32_as_u32 y).
Proof.
  intros Hx Hy. pose proof (nonneg_not_nan x Hx) as Hn.
  assert (E : f32_min x y = if f32_lt y x then y else x) by (by destruct x).
  rewrite E. pose proof (lt_u32 y x Hy Hx) as H. destruct (f32_lt y x); (split; [done|lia]).
Qed.

Lemma unit_add_nonneg r n : is_unit r -> (n < 2 ^ 24)%N -> nonneg (f32_add r (f32_of_N n)).
Proof.
  intros Hr Hn. destruct (unit_add_good r n Hr Hn) as (x & Hg & [Hlo _] & _). exists x. split; [done|].
  assert (0 <= IZR (Z.of_N n))%R by (apply IZR_le; lia). lra.
Qed.

Lemma unit_add_u32 r n : is_unit r -> (n < 2 ^ 24)%N ->
  let v := f32_as_u32 (f32_add r (f32_of_N n)) in (v = n \/ v = n + 1)%N /\ (n = 0 -> v = 0)%N.
Proof.
  intros Hr Hn. destruct (unit_add_good r n Hr Hn) as (x & Hg & [Hlo Hhi] & H1). cbn zeta.
  assert (Hp : (0 <= IZR (Z.of_N n))%R) by (apply IZR_le; lia).
  unfold f32_as_u32. rewrite (trunc_floor _ _ x Hg) by lra.
  apply Zfloor_le in Hlo as Hlo'. rewrite Zfloor_IZR in Hlo'.
  apply Zfloor_le in Hhi as Hhi'. rewrite Zfloor_IZR in Hhi'.
  split; [lia|]. intros ->.
  assert (Zfloor x = 0)%Z; [|lia]. apply Zfloor_imp. cbn. split; [apply Hlo|]. by apply H1.
Qed.

Lemma add_lt_initial r n : is_unit r -> (n < 2 ^ 24)%N -> f32_lt (f32_add r (f32_of_N n)) initial = true.
Proof.
  intros Hr Hn. destruct (unit_add_good r n Hr Hn) as (x & Hg & [_ Hhi] & _).
  apply (good_ltb 24 128 _ _ _ _ Hg initial_good). eapply Rle_lt_trans; [apply Hhi|]. apply IZR_lt. lia.
Qed.

Lemma later_not_lt r r' n : is_unit r -> is_unit r' -> (0 < n < 2 ^ 24)%N ->
  f32_lt (f32_add r' (f32_of_N n)) (f32_add r (f32_of_N 0)) = false.
Proof.
  intros Hr Hr' Hn. destruct (unit_add_good r' n Hr') as (x & Hg & [Hlo _] & _); [lia|].
  destruct (unit_add_good r 0 Hr) as (y & Hgy & _ & Hy); [lia|].
  destruct (f32_lt _ _) eqn:E; [|done]. apply (good_ltb 24 128 _ _ _ _ Hg Hgy) in E.
  assert (1 <= IZR (Z.of_N n))%R by (apply IZR_le; lia). specialize (Hy eq_refl). lra.
Qed.

Lemma add_usize r n : is_unit r -> (n < 2 ^ 24)%N ->
  f32_as_usize (f32_add r (f32_of_N n)) = f32_as_u32 (f32_add r (f32_of_N n)).
Proof.
  intros Hr Hn. destruct (unit_add_good r n Hr Hn) as (x & Hg & [Hlo Hhi] & _).
  assert (Hp : (0 <= IZR (Z.of_N n))%R) by (apply IZR_le; lia).
  unfold f32_as_u32, f32_as_usize. rewrite !(trunc_floor _ _ x Hg) by lra.
  apply Zfloor_le in Hhi as Hhi'. rewrite Zfloor_IZR in Hhi'. lia.
Qed.
