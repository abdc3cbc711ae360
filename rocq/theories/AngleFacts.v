(** Proofs about [hamming_angle]: distance from the real angle. *)
From Coq Require Import Reals Qreals QArith Qabs Qpower Machin Lra Lia ZArith List Bool RMicromega.
From Verif Require Import Float SimHashBits SpecAngle SimHashFacts.
Import ListNotations.
Local Open Scope R_scope.

(** ** Rational bounds of PI *)
Fixpoint qpow (x : Q) (n : nat) : Q := match n with O => 1%Q | S n => Qred (x * qpow x n) end.
Definition qatan (x : Q) (n : nat) : Q := (qpow x (2 * n + 1) / inject_Z (Z.of_nat (2 * n + 1)))%Q.
Definition qterm (n : nat) : Q := (qpow (-1) n * (2 * qatan (1 # 3) n + qatan (1 # 7) n))%Q.
Fixpoint qsum (n : nat) : Q := match n with O => qterm 0 | S k => Qred (qsum k + qterm (S k)) end.

Lemma Q2R_red x : Q2R (Qred x) = Q2R x.
Proof. apply Qeq_eqR. apply Qred_correct. Qed.
Lemma Q2R_Z z : Q2R (inject_Z z) = IZR z.
Proof. unfold Q2R. cbn. field. Qed.
Lemma Q2R_pow x n : Q2R (qpow x n) = Q2R x ^ n.
Proof. induction n as [|n IH]; cbn [qpow pow]; [apply (Q2R_Z 1)|]. rewrite Q2R_red, Q2R_mult, IH. reflexivity. Qed.
Lemma Q2R_atan x n : Q2R (qatan x n) = Ratan_seq (Q2R x) n.
Proof.
  unfold qatan, Ratan_seq. rewrite Q2R_div, Q2R_pow, Q2R_Z, <- INR_IZR_INZ; [reflexivity|].
  unfold Qeq, inject_Z. cbn [Qnum Qden]. lia.
Qed.
Lemma Q2R_term n : Q2R (qterm n) = tg_alt PI_2_3_7_tg n.
Proof.
  unfold qterm, tg_alt, PI_2_3_7_tg. rewrite Q2R_mult, Q2R_plus, Q2R_mult, !Q2R_atan, Q2R_pow.
  replace (Q2R (-1)) with (-1) by (unfold Q2R; cbn; lra). replace (Q2R 2) with 2 by (unfold Q2R; cbn; lra).
  replace (Q2R (1 # 3)) with (/ 3) by (unfold Q2R; cbn; lra). replace (Q2R (1 # 7)) with (/ 7) by (unfold Q2R; cbn; lra).
  reflexivity.
Qed.
Lemma Q2R_sum n : Q2R (qsum n) = sum_f_R0 (tg_alt PI_2_3_7_tg) n.
Proof.
  induction n as [|n IH]; cbn [qsum sum_f_R0]; [apply Q2R_term|]. rewrite Q2R_red, Q2R_plus, IH, Q2R_term. reflexivity.
Qed.

Definition qpi : Q := (7074237752028440 # 2251799813685248)%Q.
Lemma pi_close : Rabs (Q2R qpi - PI) <= Q2R (1 # 4503599627370496).
Proof.
  pose proof (PI_2_3_7_ineq 17) as [Hlo Hhi]. rewrite <- !Q2R_sum in Hlo, Hhi.
  assert (H1 : Q2R (qpi - (1 # 4503599627370496)) <= Q2R (4 * qsum (S (2 * 17)))).
  { apply Qle_Rle. apply Qle_bool_iff. vm_compute. reflexivity. }
  assert (H2 : Q2R (4 * qsum (2 * 17)) <= Q2R (qpi + (1 # 4503599627370496))).
  { apply Qle_Rle. apply Qle_bool_iff. vm_compute. reflexivity. }
  rewrite Q2R_minus, Q2R_mult in H1. rewrite Q2R_plus, Q2R_mult in H2.
  replace (Q2R 4) with 4 in H1, H2 by (unfold Q2R; cbn; lra).
  apply Rabs_le. lra.
Qed.

(** ** The angle of each distance *)
Definition qfloat (x : f64) : Q :=
  match x with
  | S754_finite s m e => ((if s then Z.neg m else Z.pos m) # 1) * (2 # 1) ^ e
  | _ => 0
  end%Q.
Lemma qfloat_real x : Q2R (qfloat x) = real_of x.
Proof.
  destruct x as [s|s| |s m e]; cbn [qfloat real_of]; try (unfold Q2R; cbn; lra).
  rewrite Q2R_mult, Q2RpowerRZ by (left; discriminate). f_equal.
  - unfold Q2R. cbn [Qnum Qden]. destruct s; field.
  - f_equal. unfold Q2R. cbn. field.
Qed.

Definition eps : Q := 1 # 4503599627370496.
Definition share (W k : nat) : Q := Z.of_nat k # Pos.of_nat W.
Definition angles_close (W : nat) : bool :=
  forallb (fun k => Qle_bool (qfloat (angle_of W k) - share W k * qpi) eps &&
                    Qle_bool (share W k * qpi - qfloat (angle_of W k)) eps) (seq 0 (S W)).
Lemma angles_close_64 : angles_close 64 = true.
Proof. vm_compute. reflexivity. Qed.
Lemma angles_close_128 : angles_close 128 = true.
Proof. vm_compute. reflexivity. Qed.

Lemma Q2R_share W k : (0 < W)%nat -> Q2R (share W k) = INR k / INR W.
Proof.
  intros HW. unfold share, Q2R. cbn [Qnum Qden]. rewrite !INR_IZR_INZ. unfold Rdiv. do 3 f_equal.
  rewrite <- (Nat2Pos.id W) at 2 by lia. symmetry. apply positive_nat_Z.
Qed.

Lemma angle_error W k : (0 < W)%nat -> angles_close W = true -> (k <= W)%nat ->
  Rabs (real_of (angle_of W k) - INR k * PI / INR W) <= powerRZ 2 (-51).
Proof.
  intros HW Ha Hk. unfold angles_close in Ha. rewrite forallb_forall in Ha.
  assert (Hin : In k (seq 0 (S W))) by (apply in_seq; lia). apply Ha, andb_true_iff in Hin as [H1 H2]. clear Ha.
  apply Qle_bool_iff, Qle_Rle in H1. apply Qle_bool_iff, Qle_Rle in H2.
  rewrite Q2R_minus, Q2R_mult, qfloat_real, Q2R_share in H1, H2 by exact HW.
  pose proof pi_close as Hp. fold eps in Hp.
  assert (HWr : 0 < INR W) by (apply lt_0_INR; exact HW).
  assert (Hkr : 0 <= INR k / INR W <= 1).
  { split.
    - apply Rmult_le_pos; [apply pos_INR|]. left. apply Rinv_0_lt_compat. exact HWr.
    - apply Rmult_le_reg_r with (INR W); [exact HWr|]. unfold Rdiv. rewrite Rmult_assoc, Rinv_l by lra.
      rewrite Rmult_1_l, Rmult_1_r. apply le_INR. exact Hk. }
  assert (He : Q2R eps + Q2R eps = powerRZ 2 (-51)).
  { unfold Q2R, eps. cbn [Qnum Qden]. cbn [powerRZ]. assert (E : 2 ^ Pos.to_nat 51 = 2251799813685248).
    { change (Pos.to_nat 51) with 51%nat. cbn [pow]. lra. }
    rewrite E. lra. }
  assert (He0 : 0 <= Q2R eps) by (unfold Q2R, eps; cbn [Qnum Qden]; lra).
  replace (INR k * PI / INR W) with (INR k / INR W * PI) by (unfold Rdiv; ring).
  assert (Hd : Rabs (INR k / INR W * Q2R qpi - INR k / INR W * PI) <= Q2R eps).
  { rewrite <- Rmult_minus_distr_l, Rabs_mult, (Rabs_pos_eq (INR k / INR W)) by tauto.
    apply Rle_trans with (1 * Rabs (Q2R qpi - PI)); [|lra].
    apply Rmult_le_compat_r; [apply Rabs_pos|tauto]. }
  rewrite <- He. apply Rabs_le. pose proof (Rle_abs (INR k / INR W * Q2R qpi - INR k / INR W * PI)) as Ha. pose proof (Rle_abs (- (INR k / INR W * Q2R qpi - INR k / INR W * PI))) as Hb. rewrite Rabs_Ropp in Hb. lra.
Qed.
