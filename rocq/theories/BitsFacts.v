(** Proofs about bits, population counts and Hamming distance. *)
From stdpp Require Import base list.
From Coq Require Import NArith ZArith Lia.
From Verif Require Import Base SimHashBits SpecSimHash.
Local Open Scope nat_scope.

Local Notation pow2 W := (2 ^ N.of_nat W)%N.

Lemma bit_high x W i : (x < pow2 W)%N -> W <= i -> bit x i = false.
Proof.
  intros Hx Hi. unfold bit. destruct (decide (x = 0%N)) as [->|Hne]; [apply N.bits_0|].
  apply N.bits_above_log2. apply N.log2_lt_pow2 in Hx; lia.
Qed.

Lemma bit_ext W x y : (x < pow2 W)%N -> (y < pow2 W)%N ->
  (forall i, i < W -> bit x i = bit y i) -> x = y.
Proof.
  intros Hx Hy Hb. apply N.bits_inj. intros i. rewrite <- (N2Nat.id i).
  destruct (decide (N.to_nat i < W)) as [Hi|Hi]; [by apply Hb|].
  change (bit x (N.to_nat i) = bit y (N.to_nat i)).
  by rewrite !(bit_high _ W) by (done || lia).
Qed.

Lemma bits_eq x y : (forall i, bit x i = bit y i) -> x = y.
Proof. intros Hb. apply N.bits_inj. intros i. rewrite <- (N2Nat.id i). apply Hb. Qed.

Lemma bound_of_bits W x : (forall i, W <= i -> bit x i = false) -> (x < pow2 W)%N.
Proof.
  intros Hb. destruct (decide (x = 0%N)) as [->|Hne].
  { apply N.neq_0_lt_0, N.pow_nonzero. lia. }
  apply N.log2_lt_pow2; [lia|]. destruct (decide (N.log2 x < N.of_nat W)%N) as [|Hge]; [done|].
  exfalso. specialize (Hb (N.to_nat (N.log2 x)) ltac:(lia)). unfold bit in Hb.
  rewrite N2Nat.id, N.bit_log2 in Hb by done. done.
Qed.

Lemma bit_0 i : bit 0 i = false.
Proof. apply N.bits_0. Qed.
Lemma bit_lor x y i : bit (N.lor x y) i = bit x i || bit y i.
Proof. apply N.lor_spec. Qed.
Lemma bit_land x y i : bit (N.land x y) i = bit x i && bit y i.
Proof. apply N.land_spec. Qed.
Lemma bit_lxor x y i : bit (N.lxor x y) i = xorb (bit x i) (bit y i).
Proof. apply N.lxor_spec. Qed.

Lemma bit_mod x W i : bit (x mod pow2 W) i = bit x i && bool_decide (i < W).
Proof.
  unfold bit. case_bool_decide.
  - rewrite N.mod_pow2_bits_low by lia. by rewrite andb_true_r.
  - rewrite N.mod_pow2_bits_high by lia. by rewrite andb_false_r.
Qed.

Lemma bit_shiftl x n i : bit (N.shiftl x (N.of_nat n)) i = bool_decide (n <= i) && bit x (i - n).
Proof.
  unfold bit. case_bool_decide.
  - rewrite N.shiftl_spec_high by lia. simpl. f_equal. lia.
  - rewrite N.shiftl_spec_low by lia. done.
Qed.
Lemma bit_shiftr x n i : bit (N.shiftr x (N.of_nat n)) i = bit x (i + n).
Proof. unfold bit. rewrite N.shiftr_spec by lia. f_equal. lia. Qed.

Lemma shl_bits W x n : n < W -> exists y, shl W x n = Some y /\
  forall i, bit y i = bool_decide (n <= i < W) && bit x (i - n).
Proof.
  intros Hn. unfold shl. rewrite (proj2 (Nat.ltb_lt n W) Hn). eexists. split; [done|].
  intros i. rewrite bit_mod, bit_shiftl. repeat case_bool_decide; simpl; try lia; try done;
    by destruct (bit x (i - n)).
Qed.
Lemma shr_bits W x n : n < W -> exists y, shr W x n = Some y /\ forall i, bit y i = bit x (i + n).
Proof.
  intros Hn. unfold shr. rewrite (proj2 (Nat.ltb_lt n W) Hn). eexists. split; [done|].
  intros i. by rewrite bit_shiftr.
Qed.

Lemma bit_1 i : bit 1 i = bool_decide (i = 0).
Proof. destruct i; [done|]. unfold bit. rewrite N.bits_above_log2; [done|]. simpl. lia. Qed.

Lemma shl_one W n : n < W -> exists y, shl W 1 n = Some y /\ forall i, bit y i = bool_decide (i = n).
Proof.
  intros Hn. destruct (shl_bits W 1 n Hn) as (y & -> & Hy). exists y. split; [done|].
  intros i. rewrite Hy, bit_1. repeat case_bool_decide; simpl; try done; lia.
Qed.

Lemma land_one_zero y n mask : (forall i, bit y i = bool_decide (i = n)) ->
  (N.land y mask =? 0)%N = negb (bit mask n).
Proof.
  intros Hy. destruct (bit mask n) eqn:E; simpl.
  - apply N.eqb_neq. intros H0. assert (Hb := bit_0 n). rewrite <- H0, bit_land, Hy, E in Hb.
    by rewrite bool_decide_true in Hb.
  - apply N.eqb_eq. apply bits_eq. intros i. rewrite bit_land, Hy, bit_0.
    case_bool_decide; subst; [by rewrite E|done].
Qed.

(** Population count. *)
Lemma count_ones_double (b : bool) x :
  count_ones (2 * x + N.b2n b) = N.to_nat (N.b2n b) + count_ones x.
Proof. by destruct x, b. Qed.

Lemma bit_succ x i : bit x (S i) = bit (N.div2 x) i.
Proof. unfold bit. rewrite N.div2_spec, N.shiftr_spec by lia. f_equal. lia. Qed.

Lemma count_ones_bits W x : (x < pow2 W)%N ->
  count_ones x = length (filter (fun i => bit x i = true) (seq 0 W)).
Proof.
  revert x. induction W as [|W IH]; intros x Hx.
  { simpl in Hx. assert (x = 0%N) as -> by lia. done. }
  assert (Hd : (N.div2 x < pow2 W)%N).
  { rewrite N.div2_div. apply N.div_lt_upper_bound; [done|].
    rewrite <- N.pow_succ_r by lia. by rewrite <- Nat2N.inj_succ. }
  rewrite (N.div2_odd x) at 1. rewrite count_ones_double, (IH _ Hd).
  rewrite <- cons_seq, filter_cons. rewrite <- fmap_S_seq.
  assert (Hf : forall l, length (filter (fun i => bit x i = true) (S <$> l)) =
     length (filter (fun i => bit (N.div2 x) i = true) l)).
  { induction l as [|i l IHl]; [done|]. rewrite fmap_cons, !filter_cons.
    destruct (decide (bit x (S i) = true)) as [E|E]; rewrite bit_succ in E.
    - rewrite decide_True by done. simpl. by rewrite <- IHl.
    - rewrite decide_False by done. by rewrite <- IHl. }
  change (bit x 0) with (N.testbit x 0). rewrite N.bit0_odd.
  destruct (N.odd x); simpl; rewrite Hf; done.
Qed.

Lemma lxor_bound W x y : (x < pow2 W)%N -> (y < pow2 W)%N -> (N.lxor x y < pow2 W)%N.
Proof.
  intros Hx Hy. apply bound_of_bits. intros i Hi.
  by rewrite bit_lxor, !(bit_high _ W).
Qed.

Lemma filter_ext_length {A} (P Q : A -> Prop) `{!forall x, Decision (P x)} `{!forall x, Decision (Q x)}
    (l : list A) : (forall x, x ∈ l -> P x <-> Q x) -> filter P l = filter Q l.
Proof.
  induction l as [|x l IH]; intros HPQ; [done|]. rewrite !filter_cons.
  rewrite IH by (intros; apply HPQ; by right).
  assert (Hx := HPQ x (elem_of_list_here _ _)). repeat case_decide; tauto || done.
Qed.

Lemma hamming_distance_spec W x y : (x < pow2 W)%N -> (y < pow2 W)%N ->
  hamming_distance x y = hamming W x y.
Proof.
  intros Hx Hy. unfold hamming_distance, hamming.
  rewrite (count_ones_bits W) by (by apply lxor_bound). f_equal.
  apply filter_ext_length. intros i _. rewrite bit_lxor.
  destruct (bit x i), (bit y i); done.
Qed.

(** Metric laws. *)
Lemma hamming_sym W x y : hamming W x y = hamming W y x.
Proof. unfold hamming. f_equal. apply filter_ext_length. intros. naive_solver. Qed.

Lemma hamming_le W x y : hamming W x y <= W.
Proof. unfold hamming. rewrite <- (seq_length W 0) at 2. apply filter_length. Qed.

Lemma hamming_0 W x y : (x < pow2 W)%N -> (y < pow2 W)%N -> hamming W x y = 0 <-> x = y.
Proof.
  intros Hx Hy. unfold hamming. split.
  - intros H0%nil_length_inv. apply (bit_ext W); [done..|]. intros i Hi.
    destruct (decide (bit x i = bit y i)) as [|Hne]; [done|]. exfalso.
    assert (i ∈ filter (fun i => bit x i ≠ bit y i) (seq 0 W)) as Hin.
    { apply elem_of_list_filter. split; [done|]. apply elem_of_seq. lia. }
    rewrite H0 in Hin. by apply elem_of_nil in Hin.
  - intros ->. rewrite (filter_ext_length _ (fun _ => False)) by naive_solver.
    by induction (seq 0 W).
Qed.

Lemma hamming_triangle W x y z : hamming W x z <= hamming W x y + hamming W y z.
Proof.
  unfold hamming. induction (seq 0 W) as [|i l IH]; [done|]. rewrite !filter_cons.
  destruct (bit x i), (bit y i), (bit z i); simpl;
    repeat (case_decide; simpl); try done; lia.
Qed.
