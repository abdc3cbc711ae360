(** Facts about the f64 similarity and about [similarity_greater_than_threshold]. *)
From stdpp Require Import base list.
From Coq Require Import NArith ZArith Reals Lra Lia.
From Flocq Require Import Core BinarySingleNaN.
From Verif Require Import Base Float FloatFacts F64Facts Similarity SpecIndex SimilarityFacts
  MinHashIndexFacts2.
Local Open Scope nat_scope.

Local Existing Instance Hprec64.

(** [x as uN] is the saturated floor. *)
Lemma trunc_abs_floor m e : f64_trunc_abs m e = Zfloor (IZR (Zpos m) * bpow radix2 e).
Proof.
  destruct e as [|p|p]; cbn [f64_trunc_abs].
  - cbn [bpow]. rewrite Rmult_1_r. symmetry. apply Zfloor_IZR.
  - rewrite Z.shiftl_mul_pow2 by lia. rewrite <- (IZR_Zpower radix2 (Zpos p)) by lia.
    rewrite <- mult_IZR. symmetry. apply Zfloor_IZR.
  - rewrite Z.shiftr_div_pow2 by lia.
    rewrite <- Zfloor_div by (apply Z.pow_nonzero; lia). reflexivity.
Qed.

Lemma as_unsigned_floor max x r : good64 x r -> (0 <= r)%R ->
  f64_as_unsigned max x = N.min max (Z.to_N (Zfloor r)).
Proof.
  intros (_ & Hf & Hr) H0. destruct x as [s|s| |s m e]; cbn in Hf, Hr; try discriminate.
  - subst r. unfold f64_as_unsigned. rewrite (Zfloor_IZR 0). cbn. lia.
  - destruct s; cbn [f64_as_unsigned].
    + exfalso. unfold F2R in Hr. cbn in Hr. change (Zneg m) with (- Zpos m)%Z in Hr.
      rewrite opp_IZR in Hr. pose proof (bpow_gt_0 radix2 e).
      assert (0 < IZR (Zpos m))%R by (apply IZR_lt; lia). nra.
    + rewrite trunc_abs_floor. unfold F2R in Hr. cbn [cond_Zopp Fnum Fexp] in Hr. by rewrite Hr.
Qed.

Section Sgt.
Context {T : Type} `{!EqDecision T}.

Lemma sgt_loop_spec expected num (x y : list T) :
  length x = length y -> (num < expected)%N \/ 0 < length x ->
  sgt_loop expected num (zip x y) = (expected <=? num + N.of_nat (agreements x y))%N.
Proof.
  revert num y. induction x as [|a x IH]; intros num [|b y] Hl Hn; simpl in Hl; try done.
  - simpl in Hn. cbn. rewrite N.add_0_r. symmetry. apply N.leb_gt. lia.
  - cbn [zip zip_with sgt_loop fst snd]. rewrite agreements_cons.
    destruct (decide (a = b)) as [->|Hne]; cbn [fst snd].
    + destruct (N.leb_spec expected (num + 1)).
      * symmetry. apply N.leb_le. lia.
      * fold (zip x y). rewrite IH by lia. apply eq_true_iff_eq. rewrite !N.leb_le. lia.
    + destruct (N.leb_spec expected num).
      * symmetry. apply N.leb_le. lia.
      * fold (zip x y). rewrite IH by lia. apply eq_true_iff_eq. rewrite !N.leb_le. lia.
Qed.

Lemma format_int_half m : (0 <= m < 2 ^ 51)%Z ->
  generic_format radix2 (FLT_exp (-1074) 53) (IZR m + / 2).
Proof.
  intros Hm. apply generic_format_FLT. exists (Float radix2 (2 * m + 1) (-1)).
  - unfold F2R. cbn [Fnum Fexp]. rewrite plus_IZR, mult_IZR.
    change (bpow radix2 (-1)) with (/ 2)%R. lra.
  - change (Z.abs (2 * m + 1) < 2 ^ 53)%Z. lia.
  - cbn [Fexp]. lia.
Qed.

(** Product with the number of hashes. *)
Lemma mul_good n t r : (n < 2 ^ 32)%N -> good64 t r -> (0 <= r <= 1)%R ->
  good64 (f64_mul (f64_of_N n) t) (rnd64 (IZR (Z.of_N n) * r)) /\
  (0 <= rnd64 (IZR (Z.of_N n) * r) <= IZR (Z.of_N n))%R.
Proof.
  intros Hn Ht Hr.
  assert (Hn0 : (0 <= IZR (Z.of_N n))%R) by (apply IZR_le; lia).
  assert (Hb : (0 <= rnd64 (IZR (Z.of_N n) * r) <= IZR (Z.of_N n))%R).
  { split.
    - apply round_ge_generic; auto with typeclass_instances; [apply generic_format_0|nra].
    - apply round_le_generic; auto with typeclass_instances; [|nra].
      apply (good_format 53 1024 _ _ (of_N_good n ltac:(lia))). }
  split; [|done].
  apply (good_mul 53 1024 Hprec64 Hemax64); [apply of_N_good; lia|done|].
  rewrite Rabs_pos_eq by apply Hb.
  apply Rle_lt_trans with (IZR (Z.of_N n)); [apply Hb|].
  apply Rlt_le_trans with (IZR (2 ^ 32)); [apply IZR_lt; lia|].
  change (2 ^ 32)%Z with (Zpower radix2 32). rewrite IZR_Zpower by lia. apply bpow_le. lia.
Qed.

Lemma sgt_spec (x y : list T) t r :
  length x = length y -> 0 < length x -> (N.of_nat (length x) < 2 ^ 32)%N ->
  good64 t r -> (0 <= r <= 1)%R ->
  similarity_greater_than_threshold x y t =
  Some (Zfloor (rnd64 (IZR (Z.of_nat (length x)) * r)) <=? Z.of_nat (agreements x y))%Z.
Proof.
  intros Hl Hpos Hn Ht Hr. unfold similarity_greater_than_threshold.
  rewrite decide_True by done. f_equal. rewrite sgt_loop_spec by auto.
  destruct (mul_good _ t r Hn Ht Hr) as [Hg Hb]. rewrite !nat_N_Z in Hg, Hb.
  rewrite (as_unsigned_floor _ _ _ Hg) by apply Hb.
  set (v := rnd64 _) in *.
  assert (Hf : (0 <= Zfloor v <= Z.of_nat (length x))%Z).
  { split; [apply Zfloor_lub; apply Hb|].
    rewrite <- (Zfloor_IZR (Z.of_nat (length x))). apply Zfloor_le, Hb. }
  apply eq_true_iff_eq. rewrite N.leb_le, Z.leb_le. lia.
Qed.

(** It is implied by the exact comparison. *)
Lemma sgt_of_ge (x y : list T) t :
  length x = length y -> 0 < length x -> (N.of_nat (length x) < 2 ^ 32)%N ->
  f64_valid t = true ->
  f64_ge (sim x y) t = true ->
  similarity_greater_than_threshold x y t = Some true.
Proof.
  intros Hl Hpos Hn Hv Hge.
  pose proof (sim_good x y Hpos ltac:(lia)) as Gs.
  assert (Hs01 : (0 <= rnd64 (IZR (Z.of_nat (agreements x y)) / IZR (Z.of_nat (length x))) <= 1)%R).
  { pose proof (agreements_le x y).
    pose proof (ratio64_bounds (N.of_nat (agreements x y)) (N.of_nat (length x))) as Hb.
    rewrite !nat_N_Z in Hb. apply Hb; lia. }
  unfold similarity_greater_than_threshold. rewrite decide_True by done. f_equal.
  rewrite sgt_loop_spec by auto. apply N.leb_le.
  destruct (is_finite_SF t) eqn:Hf.
  - assert (Ht : good64 t (SF2R radix2 t)) by done.
    set (r := SF2R radix2 t) in *.
    apply (good_leb 53 1024 _ _ _ _ Ht Gs) in Hge.
    destruct (Rlt_le_dec r 0) as [Hneg|H0].
    + (* negative thresholds truncate to 0 *)
      destruct t as [s|s| |s m e]; cbn in Hf; try discriminate.
      * unfold r in Hneg. cbn in Hneg. lra.
      * destruct s.
        2:{ exfalso. unfold r, SF2R, F2R in Hneg. cbn in Hneg.
            pose proof (bpow_gt_0 radix2 e).
            assert (0 < IZR (Zpos m))%R by (apply IZR_lt; lia). nra. }
        assert (f64_as_unsigned (2 ^ 32 - 1)
          (f64_mul (f64_of_N (N.of_nat (length x))) (S754_finite true m e)) = 0%N) as ->; [|lia].
        pose proof (of_N_good (N.of_nat (length x)) ltac:(lia)) as (_ & Hfn & Hrn).
        destruct (f64_of_N (N.of_nat (length x))) as [s|s| |s m' e'] eqn:E; try discriminate.
        -- done.
        -- destruct s.
           { exfalso. unfold SF2R, F2R in Hrn. cbn in Hrn. change (Zneg m') with (- Zpos m')%Z in Hrn.
             rewrite opp_IZR in Hrn. pose proof (bpow_gt_0 radix2 e').
             assert (0 < IZR (Zpos m'))%R by (apply IZR_lt; lia).
             assert (0 <= IZR (Z.of_N (N.of_nat (length x))))%R by (apply IZR_le; lia). nra. }
           unfold f64_mul, SFmul. cbn [xorb].
           unfold SpecFloat.binary_round_aux.
           destruct (shr_fexp _ _ _ _ _) as [mrs e1]. destruct (shr_fexp _ _ _ _ _) as [mrs' e2].
           destruct (shr_m mrs'); try reflexivity. destruct (e2 <=? _)%Z; reflexivity.
    + assert (Hr1 : (r <= 1)%R) by lra.
      destruct (mul_good _ t r Hn Ht (conj H0 Hr1)) as [Hg Hb]. rewrite !nat_N_Z in Hg, Hb.
      rewrite (as_unsigned_floor _ _ _ Hg) by apply Hb.
      pose proof (agreements_le x y) as Ha.
      assert (Hle : (rnd64 (IZR (Z.of_nat (length x)) * r)
                     <= IZR (Z.of_nat (agreements x y)) + / 2)%R).
      { apply round_le_generic; auto with typeclass_instances; [apply format_int_half; lia|].
        set (a := IZR (Z.of_nat (agreements x y))) in *.
        set (n := IZR (Z.of_nat (length x))) in *.
        assert (Hnpos : (1 <= n)%R) by (apply IZR_le; lia).
        assert (Hnmax : (n <= IZR (2 ^ 32))%R) by (apply IZR_le; lia).
        pose proof (rnd_error 53 1024 Hprec64 ltac:(lia) (a / n)) as He.
        assert (Hq : (0 <= a / n <= 1)%R) by (apply ratio_range; lia).
        specialize (He Hq). change (SpecFloat.fexp 53 1024) with (FLT_exp (-1074) 53) in He.
        apply Rabs_le_inv in He. destruct He as [_ He].
        change (rnd64 (a / n) - a / n <= bpow radix2 (-53))%R in He.
        assert (Hr : (r <= a / n + bpow radix2 (-53))%R) by lra.
        assert (Hsmall : (IZR (2 ^ 32) * bpow radix2 (-53) <= / 2)%R).
        { change (2 ^ 32)%Z with (Zpower radix2 32). rewrite IZR_Zpower, <- bpow_plus by lia.
          change (/ 2)%R with (bpow radix2 (-1)). apply bpow_le. lia. }
        assert (n * (a / n) = a)%R by (field; lra).
        pose proof (bpow_gt_0 radix2 (-53)). nra. }
      apply Zfloor_le in Hle.
      assert (Zfloor (IZR (Z.of_nat (agreements x y)) + / 2) = Z.of_nat (agreements x y)) as E.
      { apply Zfloor_imp. rewrite plus_IZR. lra. }
      rewrite E in Hle. lia.
  - destruct t as [s|s| |s m e]; try discriminate.
    (* infinities *)
      destruct s.
      * assert (f64_as_unsigned (2 ^ 32 - 1)
          (f64_mul (f64_of_N (N.of_nat (length x))) (S754_infinity true)) = 0%N) as ->; [|lia].
        pose proof (of_N_good (N.of_nat (length x)) ltac:(lia)) as (_ & Hfn & Hrn).
        destruct (f64_of_N (N.of_nat (length x))) as [s|s| |s m' e'] eqn:E; try discriminate.
        -- done.
        -- destruct s; [|done]. exfalso. unfold SF2R, F2R in Hrn. cbn in Hrn.
           change (Zneg m') with (- Zpos m')%Z in Hrn.
           rewrite opp_IZR in Hrn. pose proof (bpow_gt_0 radix2 e').
           assert (0 < IZR (Zpos m'))%R by (apply IZR_lt; lia).
           assert (0 <= IZR (Z.of_N (N.of_nat (length x))))%R by (apply IZR_le; lia). nra.
      * exfalso. destruct Gs as (_ & Hfs & _). unfold f64_ge, SFleb in Hge.
        destruct (sim x y) as [s|s| |[] m e]; cbn in Hfs, Hge; discriminate.
Qed.

Lemma sim_one_iff (x y : list T) : length x = length y -> 0 < length x ->
  (N.of_nat (length x) <= 2 ^ 53)%N -> sim x y = f64_one <-> x = y.
Proof.
  intros Hl Hpos Hn. split; [|intros ->; by apply sim_refl].
  intros E. apply agreements_full; [done|].
  pose proof (agreements_le x y).
  destruct (decide (agreements x y = length x)) as [|Hne]; [done|exfalso].
  pose proof (ratio64_lt_one (N.of_nat (agreements x y)) (N.of_nat (length x))) as Hlt.
  rewrite !nat_N_Z in Hlt. specialize (Hlt ltac:(lia) ltac:(lia)).
  pose proof (sim_good x y Hpos Hn) as (_ & _ & Hr). rewrite E in Hr.
  pose proof one_good as (_ & _ & H1). rewrite H1 in Hr. lra.
Qed.

Lemma sim_range (x y : list T) : 0 < length x ->
  (0 <= rnd64 (IZR (Z.of_nat (agreements x y)) / IZR (Z.of_nat (length x))) <= 1)%R.
Proof.
  intros Hpos. pose proof (agreements_le x y).
  pose proof (ratio64_bounds (N.of_nat (agreements x y)) (N.of_nat (length x))) as Hb.
  rewrite !nat_N_Z in Hb. apply Hb; lia.
Qed.

Lemma similarity_f64 (x y : list T) :
  length x = length y -> 0 < length x -> (N.of_nat (length x) <= 2 ^ 53)%N ->
  exists s, compute_minhash_similarity x y = Some s /\
    compute_minhash_similarity y x = Some s /\
    f64_valid s = true /\
    (SF2R radix2 s = round radix2 (FLT_exp (-1074) 53) ZnearestE
                       (IZR (Z.of_nat (agreements x y)) / IZR (Z.of_nat (length x))))%R /\
    (0 <= SF2R radix2 s <= 1)%R /\
    (s = f64_one <-> x = y).
Proof.
  intros Hl Hpos Hn. exists (sim x y).
  split; [by apply similarity_sim|]. split; [rewrite similarity_sim, sim_comm; done|].
  pose proof (sim_good x y Hpos Hn) as (Hv & _ & Hr).
  split; [done|]. split; [done|]. rewrite Hr. split; [by apply sim_range|].
  by apply sim_one_iff.
Qed.

Lemma similarity_strict (x y x' y' : list T) (s s' : f64) :
  length x = length x' -> (N.of_nat (length x) < 2 ^ 51)%N ->
  compute_minhash_similarity x y = Some s -> compute_minhash_similarity x' y' = Some s' ->
  0 < length x ->
  f64_lt s s' = true <-> agreements x y < agreements x' y'.
Proof.
  intros Hxx Hn Hs Hs' Hpos.
  destruct (decide (length x = length y)) as [Hl|Hl]; [|by rewrite similarity_panic in Hs].
  destruct (decide (length x' = length y')) as [Hl'|Hl']; [|by rewrite similarity_panic in Hs'].
  rewrite similarity_sim in Hs, Hs' by done. injection Hs as <-. injection Hs' as <-.
  unfold sim. rewrite <- Hxx. pose proof (agreements_le x y). pose proof (agreements_le x' y').
  rewrite ratio64_lt by lia. lia.
Qed.

Lemma similarity_errors (x y : list T) :
  (length x ≠ length y <-> compute_minhash_similarity x y = None) /\
  compute_minhash_similarity (T := T) [] [] = Some S754_nan.
Proof.
  split; [|done]. split; [apply similarity_panic|].
  intros E Hl. by rewrite similarity_sim in E.
Qed.

Lemma distance_f64 (x y x' y' : list T) :
  length x = length y -> length x' = length x -> length y' = length x ->
  0 < length x -> (N.of_nat (length x) < 2 ^ 51)%N ->
  exists d d', compute_minhash_distance x y = Some d /\ compute_minhash_distance x' y' = Some d' /\
    (0 <= SF2R radix2 d <= 1)%R /\
    (f64_lt d d' = true <-> agreements x' y' < agreements x y) /\
    (SF2R radix2 d = 0%R <-> x = y).
Proof.
  intros Hl Hx' Hy' Hpos Hn. exists (dist x y), (dist x' y').
  unfold compute_minhash_distance. rewrite !similarity_sim by congruence.
  split; [done|]. split; [done|].
  pose proof (dist_good x y Hpos ltac:(lia)) as (_ & _ & Hr).
  pose proof (sim_range x y Hpos) as Hs.
  split; [rewrite Hr; apply (rnd_bound 53 1024 Hprec64 ltac:(lia) ltac:(lia)); lra|].
  pose proof (agreements_le x y). pose proof (agreements_le x' y').
  split.
  - unfold dist, sim. rewrite Hx'. rewrite coratio64_lt by lia. lia.
  - rewrite Hr. split.
    + intros E. apply agreements_full; [done|].
      destruct (decide (agreements x y = length x)) as [|Hne]; [done|exfalso].
      pose proof (coratio_lt_iff 53 1024 Hprec64 ltac:(lia) ltac:(lia)
        (Z.of_nat (length x)) (Z.of_nat (agreements x y)) (Z.of_nat (length x))) as Hlt.
      change (SpecFloat.fexp 53 1024) with (FLT_exp (-1074) 53) in Hlt.
      destruct Hlt as [_ Hlt]; [lia..|]. specialize (Hlt ltac:(lia)).
      pose proof (ratio64_one (N.of_nat (length x)) ltac:(lia)) as H1. rewrite nat_N_Z in H1.
      rewrite H1 in Hlt. replace (1 - 1)%R with 0%R in Hlt by lra.
      rewrite round_0 in Hlt by auto with typeclass_instances. lra.
    + intros ->. rewrite agreements_refl.
      pose proof (ratio64_one (N.of_nat (length y)) ltac:(lia)) as H1. rewrite nat_N_Z in H1.
      rewrite H1. replace (1 - 1)%R with 0%R by lra.
      apply round_0; auto with typeclass_instances.
Qed.

Lemma finite_range t : f64_valid t = true ->
  f64_ge t (f64_of_N 0) = true -> f64_ge f64_one t = true ->
  good64 t (SF2R radix2 t) /\ (0 <= SF2R radix2 t <= 1)%R.
Proof.
  intros Hv H0 H1.
  assert (Hf : is_finite_SF t = true).
  { destruct t as [s|[]| |s m e]; try done; vm_compute in H0, H1; discriminate. }
  assert (G : good64 t (SF2R radix2 t)) by done. split; [done|].
  apply (good_leb 53 1024 _ _ _ _ (of_N_good 0 ltac:(lia)) G) in H0.
  apply (good_leb 53 1024 _ _ _ _ G one_good) in H1. done.
Qed.

Lemma greater_than_threshold (x y : list T) (t : f64) :
  length x = length y -> 0 < length x -> (N.of_nat (length x) < 2 ^ 32)%N ->
  f64_valid t = true -> f64_ge t (f64_of_N 0) = true -> f64_ge f64_one t = true ->
  exists b, similarity_greater_than_threshold x y t = Some b /\
    (b = true <->
     (Zfloor (round radix2 (FLT_exp (-1074) 53) ZnearestE
                (IZR (Z.of_nat (length x)) * SF2R radix2 t)) <= Z.of_nat (agreements x y))%Z).
Proof.
  intros Hl Hpos Hn Hv H0 H1. destruct (finite_range t Hv H0 H1) as [G R01].
  rewrite (sgt_spec x y t _ Hl Hpos Hn G R01). eexists. split; [done|]. apply Z.leb_le.
Qed.

Lemma implied_by_similarity (x y : list T) (t s : f64) :
  0 < length x -> (N.of_nat (length x) < 2 ^ 32)%N -> f64_valid t = true ->
  compute_minhash_similarity x y = Some s -> f64_ge s t = true ->
  similarity_greater_than_threshold x y t = Some true.
Proof.
  intros Hpos Hn Hv Hs Hge.
  destruct (decide (length x = length y)) as [Hl|Hl]; [|by rewrite similarity_panic in Hs].
  rewrite similarity_sim in Hs by done. injection Hs as <-. by apply sgt_of_ge.
Qed.
End Sgt.
