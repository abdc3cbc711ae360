(** Facts about the f32 set similarity. *)
From stdpp Require Import base list gmap fin_sets.
From Coq Require Import NArith ZArith Reals Lra Lia.
From Flocq Require Import Core BinarySingleNaN.
From Verif Require Import Float FloatFacts Jaccard.
Local Open Scope nat_scope.

Definition Hprec32 : Prec_gt_0 24 := eq_refl.
Definition Hemax32 : Prec_lt_emax 24 128 := eq_refl.
Local Existing Instance Hprec32.
Notation rnd32 := (round radix2 (FLT_exp (-149) 24) ZnearestE).
Notation good32 := (good 24 128).

Lemma good32_inj x y r : r <> 0%R -> good32 x r -> good32 y r -> x = y.
Proof.
  intros Hr (bx & -> & Hfx & Hx)%good_B (by_ & -> & Hfy & Hy)%good_B. f_equal.
  apply B2R_inj.
  - destruct bx; simpl in *; congruence.
  - destruct by_; simpl in *; congruence.
  - congruence.
Qed.

Lemma small_format (z : Z) : (Z.abs z <= 2 ^ 24)%Z ->
  generic_format radix2 (FLT_exp (-149) 24) (IZR z * bpow radix2 (-24)).
Proof.
  intros Hz. destruct (Z.eq_dec (Z.abs z) (2 ^ 24)) as [E|E].
  - assert (z = 2 ^ 24 \/ z = - 2 ^ 24)%Z as [->| ->] by lia.
    + replace (IZR (2 ^ 24) * bpow radix2 (-24))%R with (bpow radix2 0).
      * apply generic_format_bpow. unfold FLT_exp. cbn. lia.
      * change (2 ^ 24)%Z with (Zpower radix2 24). rewrite IZR_Zpower, <- bpow_plus by lia. done.
    + rewrite opp_IZR, Ropp_mult_distr_l_reverse. apply generic_format_opp.
      replace (IZR (2 ^ 24) * bpow radix2 (-24))%R with (bpow radix2 0).
      * apply generic_format_bpow. unfold FLT_exp. cbn. lia.
      * change (2 ^ 24)%Z with (Zpower radix2 24). rewrite IZR_Zpower, <- bpow_plus by lia. done.
  - apply generic_format_FLT. exists (Float radix2 z (-24)).
    + reflexivity.
    + change (Z.abs z < 2 ^ 24)%Z. lia.
    + cbn [Fexp]. lia.
Qed.

(** A positive ratio of small counts is at least [2^-24]. *)
Lemma ratio_ge m n : (0 < m <= n)%Z -> (n <= 2 ^ 24)%Z ->
  (bpow radix2 (-24) <= rnd32 (IZR m / IZR n))%R.
Proof.
  intros Hm Hn.
  assert (H0 : (0 < IZR n)%R) by (apply IZR_lt; lia).
  apply round_ge_generic; auto with typeclass_instances.
  - replace (bpow radix2 (-24)) with (IZR 1 * bpow radix2 (-24))%R by lra. apply small_format. lia.
  - apply Rmult_le_reg_r with (IZR n); [done|]. unfold Rdiv.
    rewrite Rmult_assoc, Rinv_l, Rmult_1_r by lra.
    apply Rle_trans with 1%R; [|apply (IZR_le 1); lia].
    apply Rle_trans with (bpow radix2 (-24) * bpow radix2 24)%R.
    + apply Rmult_le_compat_l; [apply bpow_ge_0|].
      change (bpow radix2 24) with (IZR (2 ^ 24)). by apply IZR_le.
    + rewrite <- bpow_plus. apply Req_le. reflexivity.
Qed.

Section Jaccard.
Context {U : Type} `{Countable U}.

Lemma size_zero_iff (A : gset U) : size A = 0 <-> A = ∅.
Proof. rewrite size_empty_iff. apply leibniz_equiv_iff. Qed.

Lemma union_size (A B : gset U) : size A + size B - size (A ∩ B) = size (A ∪ B).
Proof.
  assert (E1 : size A = size (A ∖ B) + size (A ∩ B)).
  { rewrite <- size_union by set_solver. f_equal. apply leibniz_equiv. intros x.
    rewrite elem_of_union, elem_of_difference, elem_of_intersection.
    destruct (decide (x ∈ B)); naive_solver. }
  assert (E2 : size (A ∪ B) = size (A ∖ B) + size B).
  { rewrite <- size_union by set_solver. f_equal. apply leibniz_equiv. intros x.
    rewrite !elem_of_union, elem_of_difference.
    destruct (decide (x ∈ B)); naive_solver. }
  lia.
Qed.

Lemma inter_size_le (A B : gset U) : size (A ∩ B) <= size (A ∪ B).
Proof. apply subseteq_size. set_solver. Qed.

Lemma inter_size_full (A B : gset U) : size (A ∩ B) = size (A ∪ B) <-> A = B.
Proof.
  split; [|intros ->; f_equal; set_solver].
  intros E.
  assert (E' : A ∩ B = A ∪ B).
  { destruct (decide (A ∩ B = A ∪ B)) as [|Hne]; [done|exfalso].
    assert (Hsub : A ∩ B ⊂ A ∪ B).
    { split; [set_solver|]. intros Hs. apply Hne. apply leibniz_equiv. set_solver. }
    apply subset_size in Hsub. lia. }
  apply leibniz_equiv. intros x. split; intros Hx.
  - assert (x ∈ A ∩ B) by (rewrite E'; set_solver). set_solver.
  - assert (x ∈ A ∩ B) by (rewrite E'; set_solver). set_solver.
Qed.

Lemma jaccard_ratio (xs ys : list U) :
  compute_jaccard_similarity xs ys =
  ratio 24 128 (Z.of_nat (size ((list_to_set xs : gset U) ∩ list_to_set ys)))
               (Z.of_nat (size ((list_to_set xs : gset U) ∪ list_to_set ys))).
Proof.
  unfold compute_jaccard_similarity, ratio, f32_of_N, f32_div. cbv zeta.
  rewrite union_size. by rewrite !nat_N_Z.
Qed.

Lemma jaccard_sym (xs ys : list U) :
  compute_jaccard_similarity xs ys = compute_jaccard_similarity ys xs.
Proof.
  rewrite !jaccard_ratio.
  by rewrite (comm_L (∩) (list_to_set xs : gset U)), (comm_L (∪) (list_to_set xs : gset U)).
Qed.

Lemma jaccard_f32 (xs ys : list U) :
  let A : gset U := list_to_set xs in let B : gset U := list_to_set ys in
  A ∪ B ≠ ∅ -> (N.of_nat (size (A ∪ B)) <= 2 ^ 24)%N ->
  let s := compute_jaccard_similarity xs ys in
  f32_valid s = true /\ is_finite_SF s = true /\
  SF2R radix2 s = rnd32 (IZR (Z.of_nat (size (A ∩ B))) / IZR (Z.of_nat (size (A ∪ B)))) /\
  (0 <= SF2R radix2 s <= 1)%R /\
  (s = f32_one <-> A = B) /\
  (SF2R radix2 s = 0%R <-> A ∩ B = ∅) /\
  let d := compute_jaccard_distance xs ys in
  f32_valid d = true /\ is_finite_SF d = true /\
  SF2R radix2 d = rnd32 (1 - SF2R radix2 s) /\
  (0 <= SF2R radix2 d <= 1)%R /\
  (SF2R radix2 d = 0%R <-> A = B) /\
  (SF2R radix2 d = 1%R <-> A ∩ B = ∅).
Proof.
  intros A B Hne Hsz s.
  set (m := Z.of_nat (size (A ∩ B))). set (n := Z.of_nat (size (A ∪ B))).
  assert (Hn : (0 < n <= 2 ^ 24)%Z).
  { unfold n. split; [|lia]. assert (size (A ∪ B) ≠ 0); [|lia]. by rewrite size_zero_iff. }
  assert (Hm : (0 <= m <= n)%Z) by (pose proof (inter_size_le A B); lia).
  assert (Es : s = ratio 24 128 m n) by apply jaccard_ratio.
  assert (Hg : good32 s (rnd32 (IZR m / IZR n))).
  { rewrite Es. apply (ratio_good 24 128 Hprec32 Hemax32); lia. }
  assert (Hone : good32 f32_one 1).
  { apply (good_one 24 128 Hprec32 Hemax32); lia. }
  assert (Hr01 := ratio_range m n Hm (proj1 Hn)).
  assert (Hb : (0 <= rnd32 (IZR m / IZR n) <= 1)%R) by (apply (rnd_bound 24 128 Hprec32); lia || done).
  assert (Hd : good32 (compute_jaccard_distance xs ys) (rnd32 (1 - rnd32 (IZR m / IZR n)))).
  { unfold compute_jaccard_distance. fold s. rewrite Es.
    apply (coratio_good 24 128 Hprec32 Hemax32); lia. }
  assert (Hdb : (0 <= rnd32 (1 - rnd32 (IZR m / IZR n)) <= 1)%R)
    by (apply (rnd_bound 24 128 Hprec32); lia || lra).
  assert (Hfull : m = n <-> A = B) by (rewrite <- inter_size_full; lia).
  assert (Hzero : m = 0%Z <-> A ∩ B = ∅) by (rewrite <- (size_zero_iff (A ∩ B)); lia).
  assert (H1 : rnd32 (IZR m / IZR n) = 1%R <-> m = n).
  { split.
    - intros E. destruct (Z.eq_dec m n); [done|].
      pose proof (ratio_lt_one 24 128 Hprec32 ltac:(lia) ltac:(lia) m n ltac:(lia) ltac:(lia)) as Hlt.
      change (SpecFloat.fexp 24 128) with (FLT_exp (-149) 24) in Hlt. lra.
    - intros ->. apply (ratio_one 24 128 Hprec32); lia. }
  assert (H2 : rnd32 (IZR m / IZR n) = 0%R <-> m = 0%Z).
  { split.
    - intros E. destruct (Z.eq_dec m 0); [done|].
      pose proof (ratio_ge m n ltac:(lia) ltac:(lia)). pose proof (bpow_gt_0 radix2 (-24)). lra.
    - intros ->. unfold Rdiv. rewrite Rmult_0_l. apply round_0; auto with typeclass_instances. }
  destruct Hg as (Hv & Hf & Hr). destruct Hd as (Hv' & Hf' & Hr').
  split; [done|]. split; [done|]. split; [done|]. split; [by rewrite Hr|].
  split.
  { rewrite <- Hfull, <- H1, <- Hr. split.
    - intros ->. apply Hone.
    - intros E. apply (good32_inj _ _ 1); [lra|split; auto|done]. }
  split; [by rewrite Hr, H2|].
  split; [done|]. split; [done|]. split; [by rewrite Hr, Hr'|]. split; [by rewrite Hr'|].
  rewrite Hr'. split.
  - rewrite <- Hfull, <- H1. split.
    + intros E. destruct (Req_dec (rnd32 (IZR m / IZR n)) 1) as [|Hne1]; [done|exfalso].
      assert (Hmn : m <> n) by (rewrite <- H1; done).
      assert (Hle : (rnd32 (IZR m / IZR n) <= 1 - bpow radix2 (-24))%R).
      { apply round_le_generic; auto with typeclass_instances.
        - replace (1 - bpow radix2 (-24))%R with (IZR (2 ^ 24 - 1) * bpow radix2 (-24))%R.
          + apply small_format. lia.
          + rewrite minus_IZR. change (2 ^ 24)%Z with (Zpower radix2 24).
            rewrite IZR_Zpower by lia. rewrite Rmult_minus_distr_r, <- bpow_plus. change (bpow radix2 (24 + -24)) with 1%R. lra.
        - assert (Hn0 : (0 < IZR n)%R) by (apply IZR_lt; lia).
          apply Rmult_le_reg_r with (IZR n); [done|]. unfold Rdiv.
          rewrite Rmult_assoc, Rinv_l, Rmult_1_r by lra.
          assert (Hbn : (bpow radix2 (-24) * IZR n <= 1)%R).
          { apply Rle_trans with (bpow radix2 (-24) * bpow radix2 24)%R.
            - apply Rmult_le_compat_l; [apply bpow_ge_0|].
              change (bpow radix2 24) with (IZR (2 ^ 24)). apply IZR_le. lia.
            - rewrite <- bpow_plus. apply Req_le. reflexivity. }
          assert (IZR m <= IZR n - 1)%R by (rewrite <- minus_IZR; apply IZR_le; lia). lra. }
      assert (Hge : (bpow radix2 (-24) <= rnd32 (1 - rnd32 (IZR m / IZR n)))%R).
      { apply round_ge_generic; auto with typeclass_instances; [|lra].
        replace (bpow radix2 (-24)) with (IZR 1 * bpow radix2 (-24))%R by lra. apply small_format. lia. }
      pose proof (bpow_gt_0 radix2 (-24)). lra.
    + intros ->. replace (1 - 1)%R with 0%R by lra. apply round_0; auto with typeclass_instances.
  - rewrite <- Hzero. split.
    + intros E. destruct (Z.eq_dec m 0) as [|Hm0]; [done|exfalso].
      pose proof (ratio_ge m n ltac:(lia) ltac:(lia)) as Hge.
      assert (Hle : (rnd32 (1 - rnd32 (IZR m / IZR n)) <= 1 - bpow radix2 (-24))%R).
      { apply round_le_generic; auto with typeclass_instances; [|lra].
        replace (1 - bpow radix2 (-24))%R with (IZR (2 ^ 24 - 1) * bpow radix2 (-24))%R.
        - apply small_format. lia.
        - rewrite minus_IZR. change (2 ^ 24)%Z with (Zpower radix2 24).
          rewrite IZR_Zpower by lia. rewrite Rmult_minus_distr_r, <- bpow_plus. change (bpow radix2 (24 + -24)) with 1%R. lra. }
      pose proof (bpow_gt_0 radix2 (-24)). lra.
    + intros Hm0. rewrite (proj2 H2 Hm0), Rminus_0_r.
      assert (E1 : 1%R = (IZR (2 ^ 24) * bpow radix2 (-24))%R).
      { change (2 ^ 24)%Z with (Zpower radix2 24). rewrite IZR_Zpower, <- bpow_plus by lia. reflexivity. }
      apply round_generic; auto with typeclass_instances. rewrite E1. apply small_format. lia.
Qed.

Lemma jaccard_empty : compute_jaccard_similarity (U := U) [] [] = S754_nan /\
  compute_jaccard_distance (U := U) [] [] = S754_nan.
Proof. split; reflexivity. Qed.

Lemma jaccard_nan (xs ys : list U) :
  (N.of_nat (size ((list_to_set xs : gset U) ∪ list_to_set ys)) <= 2 ^ 24)%N ->
  compute_jaccard_similarity xs ys = S754_nan <-> xs = [] /\ ys = [].
Proof.
  intros Hsz. split; [|intros [-> ->]; apply jaccard_empty].
  intros E. destruct (decide ((list_to_set xs : gset U) ∪ list_to_set ys = ∅)) as [He|Hne].
  - destruct xs as [|x xs]; [|exfalso; set_solver]. destruct ys as [|y ys]; [done|exfalso; set_solver].
  - destruct (jaccard_f32 xs ys Hne Hsz) as (_ & Hf & _). rewrite E in Hf. done.
Qed.

Lemma jaccard_set (xs ys xs' ys' : list U) :
  (forall u, u ∈ xs <-> u ∈ xs') -> (forall u, u ∈ ys <-> u ∈ ys') ->
  compute_jaccard_similarity xs ys = compute_jaccard_similarity xs' ys'.
Proof.
  intros Hx Hy. unfold compute_jaccard_similarity.
  replace (list_to_set xs' : gset U) with (list_to_set xs : gset U) by (apply leibniz_equiv; set_solver).
  replace (list_to_set ys' : gset U) with (list_to_set ys : gset U) by (apply leibniz_equiv; set_solver).
  done.
Qed.
End Jaccard.
