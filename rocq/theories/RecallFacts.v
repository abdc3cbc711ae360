(** The parameter search in real numbers. *)
From stdpp Require Import base list.
From Coq Require Import Reals ZArith NArith Lia Lra Psatz.
From Flocq Require Import Core BinarySingleNaN.
From Verif Require Import Base Float FloatFacts F64Facts SimilarityThms Params ParamsFacts SpecAngle SpecRecall.
Local Open Scope R_scope.

Lemma real_SF2R x : real_of x = SF2R radix2 x.
Proof.
  destruct x as [s|s| |s m e]; try reflexivity. cbn [real_of SF2R]. unfold F2R. cbn [Fnum Fexp].
  rewrite bpow_powerRZ. destruct s; reflexivity.
Qed.
Lemma finite_good x : finite_float x -> good64 x (real_of x).
Proof. intros [Hv Hf]. rewrite real_SF2R. split; [done|]. split; [|done]. by destruct x. Qed.
Lemma good_finite x r : good64 x r -> finite_float x /\ real_of x = r.
Proof. intros (Hv & Hf & <-). rewrite real_SF2R. split; [|done]. split; [done|]. by destruct x. Qed.

(** ** Real powers *)
Lemma pow_unit x n : 0 <= x <= 1 -> 0 <= x ^ n <= 1.
Proof.
  intros Hx. split; [apply pow_le; lra|]. rewrite <- (pow1 n). by apply pow_incr.
Qed.
Lemma pow_diff x y n : 0 <= x <= 1 -> 0 <= y <= 1 -> Rabs (x ^ n - y ^ n) <= INR n * Rabs (x - y).
Proof.
  intros Hx Hy. induction n as [|n IH]; [cbn; rewrite Rminus_diag_eq, Rabs_R0 by done; lra|].
  rewrite S_INR. cbn [Rpow_def.pow]. replace (x * x ^ n - y * y ^ n) with (x * (x ^ n - y ^ n) + (x - y) * y ^ n) by ring.
  eapply Rle_trans; [apply Rabs_triang|]. rewrite !Rabs_mult.
  pose proof (pow_unit y n Hy). rewrite (Rabs_pos_eq x), (Rabs_pos_eq (y ^ n)) by lra.
  pose proof (Rabs_pos (x - y)). pose proof (Rabs_pos (x ^ n - y ^ n)). nra.
Qed.
Lemma share_unit p r b : 0 <= p <= 1 -> 0 <= share_bucket p r b <= 1.
Proof.
  intros Hp. unfold share_bucket. pose proof (pow_unit p r Hp). pose proof (pow_unit (1 - p ^ r) b). lra.
Qed.
Lemma share_similarity p p' r b : 0 <= p <= p' -> p' <= 1 -> share_bucket p r b <= share_bucket p' r b.
Proof.
  intros Hp Hp'. unfold share_bucket. pose proof (pow_unit p' r). pose proof (pow_incr p p' r Hp).
  assert ((1 - p' ^ r) ^ b <= (1 - p ^ r) ^ b) by (apply pow_incr; lra). lra.
Qed.
Lemma pow_le_one x m n : 0 <= x <= 1 -> (m <= n)%nat -> x ^ n <= x ^ m.
Proof.
  intros Hx Hn. replace n with (m + (n - m))%nat by lia. rewrite pow_add.
  pose proof (pow_unit x m Hx). pose proof (pow_unit x (n - m) Hx). nra.
Qed.
Lemma share_narrower p r r' b b' : 0 <= p <= 1 -> (r <= r')%nat -> (b' <= b)%nat ->
  share_bucket p r' b' <= share_bucket p r b.
Proof.
  intros Hp Hr Hb. unfold share_bucket. pose proof (pow_le_one p r r' Hp Hr).
  pose proof (pow_unit p r Hp). pose proof (pow_unit p r' Hp).
  assert ((1 - p ^ r) ^ b <= (1 - p ^ r') ^ b) by (apply pow_incr; lra).
  assert ((1 - p ^ r') ^ b <= (1 - p ^ r') ^ b') by (apply pow_le_one; [lra|done]). lra.
Qed.

(** ** The computed probability *)
Notation u := (powerRZ 2 (-53)).
Lemma u_52 : powerRZ 2 (-52) = 2 * u.
Proof. change (-53)%Z with (-52 + -1)%Z. rewrite powerRZ_add by lra. change (powerRZ 2 (-1)) with (/ (2 * 1)). lra. Qed.
Lemma u_pos : 0 < u.
Proof. apply powerRZ_lt. lra. Qed.
Lemma u_bpow : bpow radix2 (- (53)) = u.
Proof. apply bpow_powerRZ. Qed.

Lemma sub_one x : unit_float x -> unit_float (f64_sub f64_one x) /\
  Rabs (real_of (f64_sub f64_one x) - (1 - real_of x)) <= u.
Proof.
  intros [Hf Hx]. pose proof (finite_good x Hf) as Hg.
  assert (Hr : 0 <= 1 - real_of x <= 1) by lra.
  pose proof (rnd_bound 53 1024 Hprec64 ltac:(lia) ltac:(lia) _ Hr) as Hb.
  destruct (good_finite (f64_sub f64_one x) (round radix2 (SpecFloat.fexp 53 1024) ZnearestE (1 - real_of x))) as [Hf' E].
  { apply (good_sub 53 1024 Hprec64 Hemax64); [apply one_good|done|].
    rewrite Rabs_pos_eq by lra. pose proof (bpow_emax_gt2 1024 ltac:(lia)). lra. }
  rewrite E. split; [split; [done|by rewrite E]|]. rewrite <- u_bpow.
  by apply (rnd_error 53 1024 Hprec64).
Qed.

Section Powf.
Context (powf : f64 -> f64 -> f64) (Hpow : accurate powf).

Lemma proba_close s b r : unit_float s -> (1 <= r)%nat -> (1 <= b)%nat ->
  (N.of_nat r <= 2 ^ 53)%N -> (N.of_nat b <= 2 ^ 53)%N ->
  let q := proba powf s (usize_as_f64 b) (usize_as_f64 r) in
  unit_float q /\ Rabs (real_of q - share_bucket (real_of s) r b) <= 3 * (INR b + 1) * u.
Proof using Hpow.
  intros Hs Hr Hb Hr' Hb'. unfold proba, usize_as_f64.
  destruct (Hpow s r Hs Hr Hr') as [H1 E1]. set (x1 := powf s (f64_of_N (N.of_nat r))) in *.
  destruct (sub_one x1 H1) as [H2 E2]. set (x2 := f64_sub f64_one x1) in *.
  destruct (Hpow x2 b H2 Hb Hb') as [H3 E3]. set (x3 := powf x2 (f64_of_N (N.of_nat b))) in *.
  destruct (sub_one x3 H3) as [H4 E4]. set (x4 := f64_sub f64_one x3) in *.
  split; [done|]. unfold share_bucket. set (y := 1 - real_of s ^ r).
  assert (Hy : 0 <= y <= 1) by (unfold y; pose proof (pow_unit (real_of s) r (proj2 Hs)); lra).
  assert (E : Rabs (real_of x2 - y) <= 3 * u).
  { replace (real_of x2 - y) with ((real_of x2 - (1 - real_of x1)) - (real_of x1 - real_of s ^ r)) by (unfold y; ring).
    eapply Rle_trans; [apply Rabs_triang|]. rewrite Rabs_Ropp. rewrite u_52 in E1. lra. }
  pose proof (pow_diff (real_of x2) y b (proj2 H2) Hy) as Ed. rewrite u_52 in E3.
  pose proof (pos_INR b).
  replace (real_of x4 - (1 - y ^ b)) with
    ((real_of x4 - (1 - real_of x3)) - ((real_of x3 - real_of x2 ^ b) + (real_of x2 ^ b - y ^ b))) by ring.
  eapply Rle_trans; [apply Rabs_triang|]. rewrite Rabs_Ropp.
  assert (Rabs ((real_of x3 - real_of x2 ^ b) + (real_of x2 ^ b - y ^ b)) <= 2 * u + INR b * (3 * u)).
  { eapply Rle_trans; [apply Rabs_triang|]. apply Rplus_le_compat; [done|].
    eapply Rle_trans; [exact Ed|]. by apply Rmult_le_compat_l. }
  lra.
Qed.

Lemma gt_real x y : finite_float x -> finite_float y -> f64_gt x y = true <-> real_of y < real_of x.
Proof.
  intros Hx Hy. pose proof (finite_good x Hx) as Gx. pose proof (finite_good y Hy) as Gy.
  unfold f64_gt, SFltb. rewrite (good_compare 53 1024 _ _ _ _ Gy Gx).
  destruct (Rcompare_spec (real_of y) (real_of x)); split; intros; try done; lra.
Qed.

Lemma test_sound s p b r : unit_float s -> finite_float p -> (1 <= r)%nat -> (1 <= b)%nat ->
  (N.of_nat r <= 2 ^ 53)%N -> (N.of_nat b <= 2 ^ 53)%N ->
  if f64_gt (proba powf s (usize_as_f64 b) (usize_as_f64 r)) p
  then real_of p - 3 * (INR b + 1) * u < share_bucket (real_of s) r b
  else share_bucket (real_of s) r b <= real_of p + 3 * (INR b + 1) * u.
Proof using Hpow.
  intros Hs Hp Hr Hb Hr' Hb'. destruct (proba_close s b r Hs Hr Hb Hr' Hb') as [Hq E].
  set (q := proba powf s (usize_as_f64 b) (usize_as_f64 r)) in *. apply Rabs_le_inv in E.
  pose proof (gt_real q p (proj1 Hq) Hp) as Hg. destruct (f64_gt q p).
  - assert (real_of p < real_of q) by (by apply Hg). lra.
  - assert (~ real_of p < real_of q) by (intros H; apply Hg in H; done). lra.
Qed.
(** The outcome of a test, away from the bound. *)
Lemma test_true s p b r : unit_float s -> finite_float p -> (1 <= r)%nat -> (1 <= b)%nat ->
  (N.of_nat r <= 2 ^ 53)%N -> (N.of_nat b <= 2 ^ 53)%N ->
  real_of p + 3 * (INR b + 1) * u < share_bucket (real_of s) r b ->
  f64_gt (proba powf s (usize_as_f64 b) (usize_as_f64 r)) p = true.
Proof using Hpow.
  intros Hs Hp Hr Hb Hr' Hb' H. pose proof (test_sound s p b r Hs Hp Hr Hb Hr' Hb') as Ht.
  destruct (f64_gt _ _); [done|lra].
Qed.
Lemma test_false s p b r : unit_float s -> finite_float p -> (1 <= r)%nat -> (1 <= b)%nat ->
  (N.of_nat r <= 2 ^ 53)%N -> (N.of_nat b <= 2 ^ 53)%N ->
  share_bucket (real_of s) r b <= real_of p - 3 * (INR b + 1) * u ->
  f64_gt (proba powf s (usize_as_f64 b) (usize_as_f64 r)) p = false.
Proof using Hpow.
  intros Hs Hp Hr Hb Hr' Hb' H. pose proof (test_sound s p b r Hs Hp Hr Hb Hr' Hb') as Ht.
  destruct (f64_gt _ _); [lra|done].
Qed.
End Powf.

(** ** An accurate power: the exact power, rounded *)
Definition pow_exact (x y : f64) : f64 :=
  let n := f64_as_unsigned (2 ^ 64) y in
  match x with
  | S754_finite false m e => binary_normalize 53 1024 (Z.pos m ^ Z.of_N n) (e * Z.of_N n) false
  | _ => S754_zero false
  end.

Lemma normalize_good m e : 0 <= F2R (Float radix2 m e) <= 1 ->
  good64 (binary_normalize 53 1024 m e false) (round radix2 (SpecFloat.fexp 53 1024) ZnearestE (F2R (Float radix2 m e))).
Proof.
  intros Hr. rewrite (binary_normalize_equiv 53 1024 Hprec64 Hemax64). apply good_B. eexists. split; [reflexivity|].
  pose proof (binary_normalize_correct 53 1024 Hprec64 Hemax64 mode_NE m e false) as H. cbv zeta in H.
  pose proof (rnd_bound 53 1024 Hprec64 ltac:(lia) ltac:(lia) _ Hr) as Hb.
  rewrite Rlt_bool_true in H.
  - destruct H as (H1 & H2 & _). done.
  - change (round_mode mode_NE) with ZnearestE. rewrite Rabs_pos_eq by lra.
    pose proof (bpow_emax_gt2 1024 ltac:(lia)). lra.
Qed.

Lemma bpow_pow e n : bpow radix2 e ^ n = bpow radix2 (e * Z.of_nat n).
Proof.
  induction n as [|n IH]; [by rewrite Z.mul_0_r|]. cbn [Rpow_def.pow]. rewrite IH, <- bpow_plus. f_equal. lia.
Qed.
Lemma F2R_pow m e n : F2R (Float radix2 (Z.pos m ^ Z.of_nat n) (e * Z.of_nat n)) = F2R (Float radix2 (Z.pos m) e) ^ n.
Proof.
  unfold F2R. cbn [Fnum Fexp]. rewrite Rpow_mult_distr, bpow_pow. by rewrite <- pow_IZR.
Qed.

Lemma exponent_of n : (N.of_nat n <= 2 ^ 53)%N -> f64_as_unsigned (2 ^ 64) (f64_of_N (N.of_nat n)) = N.of_nat n.
Proof.
  intros Hn. rewrite (as_unsigned_floor _ _ _ (of_N_good _ Hn)) by (apply IZR_le; lia).
  rewrite Zfloor_IZR. rewrite N2Z.id. apply N.min_r.
  transitivity (2 ^ 53)%N; [done|]. by apply N.pow_le_mono_r.
Qed.

Lemma pow_exact_accurate : accurate pow_exact.
Proof.
  intros x n [Hf Hx] Hn Hn' y.
  assert (Hcase : x = S754_zero true \/ x = S754_zero false \/ real_of x = 0 \/
    exists m e, x = S754_finite false m e).
  { destruct Hf as [Hv Hf]. destruct x as [[]| | |[] m e]; try done; eauto 6.
    right; right; left. assert (real_of (S754_finite true m e) < 0); [|lra].
    cbn [real_of]. assert (0 < powerRZ 2 e) by (apply powerRZ_lt; lra).
    assert (IZR (Z.neg m) < 0) by (apply IZR_lt; lia). nra. }
  assert (H0 : real_of x = 0 -> y = S754_zero false -> unit_float y /\ Rabs (real_of y - real_of x ^ n) <= powerRZ 2 (-52)).
  { intros E ->. split; [split; [done|cbn [real_of]; lra]|]. rewrite E, pow_i by lia. cbn [real_of].
    rewrite Rminus_diag_eq, Rabs_R0 by done. rewrite u_52. pose proof u_pos. lra. }
  destruct Hcase as [->|[->|[E|(m & e & ->)]]].
  - by apply H0.
  - by apply H0.
  - apply H0; [done|]. destruct x as [| | |[] m e]; try done. exfalso.
    cbn [real_of] in E. assert (0 < powerRZ 2 e) by (apply powerRZ_lt; lra).
    assert (0 < IZR (Z.pos m)) by (apply IZR_lt; lia). nra.
  - unfold y, pow_exact. rewrite exponent_of by done. rewrite nat_N_Z.
    set (v := F2R (Float radix2 (Z.pos m) e)) in *.
    assert (Ev : real_of (S754_finite false m e) = v) by apply real_SF2R. rewrite Ev in *. pose proof (F2R_pow m e n) as Ep. fold v in Ep.
    pose proof (pow_unit v n Hx) as Hu. rewrite <- Ep in Hu. apply normalize_good in Hu as Hg.
    destruct (good_finite _ _ Hg) as [Hf' E].
    pose proof (rnd_bound 53 1024 Hprec64 ltac:(lia) ltac:(lia) _ Hu) as Hb. unfold unit_float. rewrite E.
    split; [done|]. rewrite <- Ep. eapply Rle_trans; [by apply (rnd_error 53 1024 Hprec64)|].
    rewrite u_bpow, u_52. pose proof u_pos. lra.
Qed.

(** ** Bounds by whole numbers: the similarity [m / d] *)
Notation whole m d r b := (d ^ (Z.of_nat r * Z.of_nat b) - (d ^ Z.of_nat r - m ^ Z.of_nat r) ^ Z.of_nat b)%Z.
Lemma share_whole m d r b : (0 < d)%Z ->
  share_bucket (IZR m / IZR d) r b * IZR d ^ (r * b) = IZR (whole m d r b).
Proof.
  intros Hd. assert (Hd' : 0 < IZR d) by (apply IZR_lt; lia).
  unfold share_bucket. rewrite minus_IZR, <- (pow_IZR _ b), minus_IZR, <- !pow_IZR.
  rewrite <- Nat2Z.inj_mul, <- pow_IZR. unfold Rdiv. rewrite Rpow_mult_distr, pow_mult.
  assert (0 < IZR d ^ r) by (apply pow_lt; lra). rewrite pow_inv.
  rewrite Rmult_minus_distr_r, Rmult_1_l, <- Rpow_mult_distr. f_equal. f_equal. field. lra.
Qed.
Lemma share_above m d r b k : (0 < d)%Z ->
  (k * d ^ (Z.of_nat r * Z.of_nat b) < 1000 * whole m d r b)%Z -> IZR k / 1000 < share_bucket (IZR m / IZR d) r b.
Proof.
  intros Hd H. assert (Hd' : 0 < IZR d) by (apply IZR_lt; lia).
  assert (Hp : 0 < IZR d ^ (r * b)) by (apply pow_lt; lra).
  apply IZR_lt in H. rewrite !mult_IZR, <- share_whole, <- Nat2Z.inj_mul, <- pow_IZR in H by done.
  apply (Rmult_lt_reg_r (IZR d ^ (r * b))); [done|]. lra.
Qed.
Lemma share_below m d r b k : (0 < d)%Z ->
  (1000 * whole m d r b < k * d ^ (Z.of_nat r * Z.of_nat b))%Z -> share_bucket (IZR m / IZR d) r b < IZR k / 1000.
Proof.
  intros Hd H. assert (Hd' : 0 < IZR d) by (apply IZR_lt; lia).
  assert (Hp : 0 < IZR d ^ (r * b)) by (apply pow_lt; lra).
  apply IZR_lt in H. rewrite !mult_IZR, <- share_whole, <- Nat2Z.inj_mul, <- pow_IZR in H by done.
  apply (Rmult_lt_reg_r (IZR d ^ (r * b))); [done|]. lra.
Qed.

(** ** Which answer the search gives *)
Lemma search_answer powf s n p r : (1 <= r)%nat -> (1 < n / r)%nat ->
  (forall w, (2 <= w <= r)%nat -> passes powf s n p w) -> ~ passes powf s n p (r + 1) ->
  calculate_b_and_r powf s n p = Some ((n / r)%nat, r).
Proof.
  intros Hr Hb Hw Hn. destruct (b_and_r_spec powf s n p) as (b' & r' & E & Hr' & Hb' & _ & _ & Hw' & Hn').
  rewrite E. destruct (Nat.lt_trichotomy r r') as [Hlt|[->|Hlt]].
  - destruct Hn. apply Hw'. lia.
  - by rewrite Hb'.
  - destruct Hn'; [|apply Hw; lia]. rewrite Hb'. eapply Nat.lt_le_trans; [exact Hb|].
    apply Nat.div_le_compat_l. lia.
Qed.

Lemma u_val : u = / 9007199254740992.
Proof. rewrite <- u_bpow. reflexivity. Qed.
Lemma div_unit m d z e : f64_div (f64_of_N m) (f64_of_N d) = S754_finite false z e -> f64_valid (S754_finite false z e) = true ->
  e = (-53)%Z -> (Z.pos z <= 9007199254740992)%Z ->
  unit_float (f64_div (f64_of_N m) (f64_of_N d)) /\ real_of (f64_div (f64_of_N m) (f64_of_N d)) = IZR (Z.pos z) / 9007199254740992.
Proof.
  intros -> Hv -> Hz. assert (E : real_of (S754_finite false z (-53)) = IZR (Z.pos z) / 9007199254740992).
  { unfold real_of. rewrite u_val. reflexivity. }
  split; [|done]. split; [by split|]. rewrite E. apply IZR_le in Hz.
  assert (0 <= IZR (Z.pos z)) by (apply IZR_le; lia). lra.
Qed.
