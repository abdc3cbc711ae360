(** The distribution of the distance of simhash signatures over token hashes (C76). *)
From stdpp Require Import base list list_numbers.
From Coq Require Import NArith ZArith Lia.
From Verif Require Import ListFacts Base SimHash SpecSimHash SimHashFacts SpecExpect ExpectFacts ExpectSig ExpectBias SimExpect
  SpecTuples TupleFacts.
Local Open Scope nat_scope.

Lemma tuples_elem_2 {A} (F : list A) n l : length l = n -> Forall (fun x => x ∈ F) l -> l ∈ tuples F n.
Proof.
  intros Hl HF. revert n Hl. induction HF as [|x l Hx HF IH]; intros n Hl; cbn in Hl; subst n; [by left|].
  cbn [tuples]. apply elem_of_list_bind. exists x. split; [|done]. apply elem_of_list_fmap. eauto.
Qed.

(** The bits of the values, position by position. *)
Definition slice (i : nat) (l : list N) : list bool := (fun v => bit v i) <$> l.
Definition slices (W : nat) (l : list N) : list (list bool) := (fun i => slice i l) <$> seq 0 W.

Section Slices.
Context (W : nat) (vs : list N) (Hnd : NoDup vs) (Hvs : forall v, v ∈ vs <-> (v < 2 ^ N.of_nat W)%N).

Lemma values_length : length vs = 2 ^ W.
Proof. apply Nat2N.inj. rewrite Nat2N.inj_pow. by apply values_below. Qed.

Lemma bits_below v w : (v < 2 ^ N.of_nat W)%N -> (w < 2 ^ N.of_nat W)%N ->
  (forall i, i < W -> bit v i = bit w i) -> v = w.
Proof.
  intros Hv Hw Hb. apply N.bits_inj. intros i. destruct (N.lt_ge_cases i (N.of_nat W)) as [Hi|Hi].
  - specialize (Hb (N.to_nat i) ltac:(lia)). unfold bit in Hb. by rewrite N2Nat.id in Hb.
  - assert (Hz : forall x, (x < 2 ^ N.of_nat W)%N -> N.testbit x i = false).
    { intros x Hx. destruct (decide (x = 0%N)) as [->|Hx0]; [apply N.bits_0|]. apply N.bits_above_log2.
      eapply N.lt_le_trans; [|exact Hi]. apply N.log2_lt_pow2; lia. }
    by rewrite !Hz.
Qed.

Lemma slices_perm u : slices W <$> assignments vs u ≡ₚ tuples (bools u) W.
Proof using Hnd Hvs.
  apply Permutation_alt. split.
  - rewrite fmap_length, assignments_length, tuples_count, bools_length, values_length, <- !Nat.pow_mul_r. f_equal. lia.
  - apply NoDup_submseteq.
    + apply NoDup_fmap_2_strong; [|by apply assignments_nodup]. intros l l' [Hl Hv]%assignments_elem [Hl' Hv']%assignments_elem E.
      apply list_eq_same_length with (n := u); [done..|]. intros k x y Hk Hx Hy.
      apply bits_below; [apply Hvs, Hv; by eapply elem_of_list_lookup_2|apply Hvs, Hv'; by eapply elem_of_list_lookup_2|].
      intros i Hi. assert (Es : slices W l !! i = slices W l' !! i) by by rewrite E.
      unfold slices in Es. rewrite !list_lookup_fmap, lookup_seq_lt in Es by done. cbn in Es. injection Es as Es.
      assert (Ex : slice i l !! k = slice i l' !! k) by by rewrite Es.
      unfold slice in Ex. rewrite !list_lookup_fmap, Hx, Hy in Ex. by injection Ex.
    + intros t (l & -> & [Hl _]%assignments_elem)%elem_of_list_fmap. apply tuples_elem_2.
      * unfold slices. by rewrite fmap_length, seq_length.
      * apply Forall_fmap, Forall_forall. intros i _. apply bools_elem. unfold slice. cbn. by rewrite fmap_length.
Qed.
End Slices.

Section Distribution.
Context {U : Type} `{EqDecision U} (W L : nat) (us xs ys : list U) (vs : list N).
Context (HL : L <= W) (Hnd : NoDup vs) (Hvs : forall v, v ∈ vs <-> (v < 2 ^ N.of_nat W)%N).
Context (dist : list N -> nat).
Notation hs := (assignments vs (length us)).
Context (Hdist : forall l rx ry, l ∈ hs -> create_signature W L (given us l) xs = Some rx ->
  create_signature W L (given us l) ys = Some ry -> dist l = hamming W rx ry).
Notation cube := (bools (length us)).
Definition differ (bs : list bool) : bool := negb (verdict us xs bs =? verdict us ys bs)%Z.

Lemma dist_slices l : l ∈ hs -> dist l = length (List.filter differ (slices L l)).
Proof using Hdist HL.
  intros Hl. pose proof (dist_bits W L us xs ys vs HL dist Hdist l Hl) as E.
  rewrite length_filter. unfold slices. rewrite total_fmap. apply Nat2Z.inj.
  enough (2 * Z.of_nat (dist l) = 2 * Z.of_nat (total (fun x => if differ (slice x l) then 1 else 0)%nat (seq 0 L)))%Z by lia.
  rewrite E, <- totalZ_of_nat, <- totalZ_mul. apply totalZ_ext. intros i _. unfold differ, slice.
  unfold verdict. repeat match goal with |- context [?a <? ?b] => destruct (Nat.ltb_spec a b) end; reflexivity.
Qed.

Lemma dist_total (G : nat -> nat) : total (fun l => G (dist l)) hs =
  2 ^ (length us * (W - L)) * total (fun t => G (length (List.filter differ t))) (tuples cube L).
Proof using Hdist HL Hnd Hvs.
  rewrite (total_ext _ (fun l => G (length (List.filter differ (take L (slices W l)))))).
  2: { intros l Hl. rewrite dist_slices by done. do 3 f_equal. unfold slices. rewrite <- fmap_take. f_equal.
       replace W with (L + (W - L)) at 1 by lia. rewrite seq_app. symmetry. apply take_app_alt. by rewrite seq_length. }
  rewrite <- (total_fmap (slices W) (fun t => G (length (List.filter differ (take L t))))).
  rewrite (total_perm _ _ _ (slices_perm W vs Hnd Hvs (length us))).
  replace W with (L + (W - L)) at 1 by lia. rewrite tuples_app, <- total_mul. apply total_ext. intros t Ht.
  apply tuples_elem in Ht as [Ht _].
  rewrite (total_ext _ (fun _ => G (length (List.filter differ t)))) by (intros t' _; by rewrite take_app_alt).
  rewrite total_const, tuples_count, bools_length, <- Nat.pow_mul_r. lia.
Qed.
End Distribution.

(** One bit. *)
Section OneBit.
Context {U : Type} `{EqDecision U} (us xs ys : list U).
Notation one l items := (create_signature 1 1 (given us l) items).
Lemma one_bit_values v : v ∈ [0;1]%N <-> (v < 2 ^ N.of_nat 1)%N.
Proof. rewrite !elem_of_cons, elem_of_nil. change (2 ^ N.of_nat 1)%N with 2%N. lia. Qed.
Lemma one_bit_nodup : NoDup [0;1]%N.
Proof. apply (bool_decide_unpack _). vm_compute. exact I. Qed.

Lemma one_bit_differ l : bool_decide (one l xs ≠ one l ys) = differ us xs ys (slice 0 l).
Proof.
  destruct (create_signature_spec 1 1 (given us l) xs ltac:(lia)) as (rx & Ex & Hx & _).
  destruct (create_signature_spec 1 1 (given us l) ys ltac:(lia)) as (ry & Ey & Hy & _).
  unfold differ, slice. rewrite (bit_votes 1 1 us ltac:(lia) l xs rx 0 Ex), (bit_votes 1 1 us ltac:(lia) l ys ry 0 Ey) by lia.
  rewrite Ex, Ey. destruct (decide (rx = ry)) as [->|Hne].
  - rewrite bool_decide_eq_false_2 by auto. by rewrite Z.eqb_refl.
  - rewrite bool_decide_eq_true_2 by congruence. destruct (bit rx 0) eqn:E1, (bit ry 0) eqn:E2; try done;
    destruct Hne; apply (bits_below 1); try done; intros i Hi; replace i with 0 by lia; congruence.
Qed.
Lemma one_bit_count : length (filter (fun l => one l xs ≠ one l ys) (assignments [0;1]%N (length us))) =
  length (List.filter (differ us xs ys) (bools (length us))).
Proof.
  rewrite filter_bool, !length_filter.
  rewrite (total_ext _ (fun l => if differ us xs ys (slice 0 l) then 1 else 0)) by (intros l _; by rewrite one_bit_differ).
  pose proof (slices_perm 1 [0;1]%N one_bit_nodup one_bit_values (length us)) as Hp.
  transitivity (total (fun t => match t with bs :: _ => if differ us xs ys bs then 1 else 0 | [] => 0 end)
    (slices 1 <$> assignments [0;1]%N (length us))).
  { by rewrite total_fmap. }
  rewrite (total_perm _ _ _ Hp), (tuples_total _ _ 0). apply total_ext. intros bs _. cbn. lia.
Qed.
End OneBit.

(** ** One token more *)
Fixpoint count_true (bs : list bool) : nat :=
  match bs with [] => 0 | b :: bs => (if b then 1 else 0) + count_true bs end.
Lemma count_true_le bs : count_true bs <= length bs.
Proof. induction bs as [|[] bs IH]; cbn; lia. Qed.
Lemma count_binom n k : total (fun bs => if count_true bs =? k then 1 else 0) (bools n) = binom n k.
Proof.
  revert k. induction n as [|n IH]; intros k; [by destruct k|].
  cbn [bools binom]. rewrite total_app, !total_fmap. destruct k as [|k].
  - rewrite (total_ext _ (fun _ => 0)) by done. rewrite total_zero. cbn [count_true Nat.add]. rewrite (IH 0). by destruct n.
  - rewrite <- (IH k), <- (IH (S k)). done.
Qed.

Section Extra.
Context {U : Type} `{EqDecision U} (y : U) (zs : list U) (Hnd : NoDup (y :: zs)).
Lemma givenb_same (us : list U) bs c (u : U) : givenb (u :: us) (c :: bs) u = c.
Proof. cbn. by case_decide. Qed.
Lemma givenb_other (us : list U) bs c (u z : U) : z <> u -> givenb (u :: us) (c :: bs) z = givenb us bs z.
Proof. cbn. by case_decide. Qed.
Lemma votes_other (us l : list U) b bs c (u : U) : u ∉ l -> votes (u :: us) b l (c :: bs) = votes us b l bs.
Proof.
  intros Hu. unfold votes. induction l as [|z l IH]; [done|]. rewrite !filter_cons.
  rewrite givenb_other by (intros ->; apply Hu; left). rewrite not_elem_of_cons in Hu.
  destruct (decide (givenb us bs z = b)); cbn [length]; rewrite (IH (proj2 Hu)); done.
Qed.
Lemma votes_all bs : length bs = length zs -> votes zs true zs bs = count_true bs /\ votes zs false zs bs = length bs - count_true bs.
Proof using Hnd.
  intros Hl. assert (E : votes zs true zs bs = count_true bs).
  2: { split; [done|]. pose proof (votes_sum zs zs bs). lia. }
  apply NoDup_cons in Hnd as [_ Hz]. revert bs Hl. induction Hz as [|z l Hz _ IH]; intros [|b bs] Hl; try done.
  unfold votes. rewrite filter_cons, givenb_same. cbn [count_true].
  assert (E : length (filter (fun u => givenb (z :: l) (b :: bs) u = true) l) = count_true bs).
  { etransitivity; [exact (votes_other l l true bs b z Hz)|]. apply IH. by injection Hl. }
  destruct b; [rewrite decide_True by done|rewrite decide_False by done]; cbn [length Nat.add]; [f_equal|]; exact E.
Qed.

Lemma differ_extra c bs : length bs = length zs ->
  differ (y :: zs) (y :: zs) zs (c :: bs) = (count_true bs =? length zs / 2) && Bool.eqb c (Nat.odd (length zs)).
Proof using Hnd.
  intros Hl. destruct (votes_all bs Hl) as [Et Ef]. pose proof (count_true_le bs).
  assert (Hy : y ∉ zs) by (apply NoDup_cons in Hnd; tauto).
  assert (Hv : forall b, votes (y :: zs) b zs (c :: bs) = votes zs b zs bs) by (intros b; by apply (votes_other zs zs)).
  assert (Hw : forall b, votes (y :: zs) b (y :: zs) (c :: bs) = (if decide (c = b) then 1 else 0) + votes zs b zs bs).
  { intros b. rewrite <- Hv. unfold votes. rewrite filter_cons, givenb_same. by destruct (decide (c = b)). }
  unfold differ, verdict. rewrite !Hv, !Hw, Et, Ef. rewrite Hl in *.
  pose proof (Nat.div_mod (length zs) 2 ltac:(lia)) as Hdm. pose proof (Nat.mod_upper_bound (length zs) 2 ltac:(lia)).
  assert (Hodd : Nat.odd (length zs) = (length zs mod 2 =? 1)).
  { apply eq_true_iff_eq. rewrite Nat.odd_spec, Nat.eqb_eq. split.
    - intros [m Hm]. rewrite Hm. rewrite Nat.add_comm, Nat.mul_comm. by rewrite Nat.mod_add.
    - intros Hm. exists (length zs / 2). lia. }
  rewrite Hodd. set (h := length zs / 2) in *. set (r := length zs mod 2) in *. set (k := count_true bs) in *. clearbody h r k.
  rewrite Hdm in *. destruct c; cbn [decide bool_eq_dec];
  repeat match goal with |- context [decide ?P] => destruct (decide P); try done end;
  repeat match goal with |- context [?a <? ?b] => destruct (Nat.ltb_spec a b) end;
  repeat match goal with |- context [?a =? ?b] => destruct (Nat.eqb_spec a b) end; cbn; try done; lia.
Qed.
Lemma extra_count : length (List.filter (differ (y :: zs) (y :: zs) zs) (bools (length (y :: zs)))) = binom (length zs) (length zs / 2).
Proof using Hnd.
  rewrite length_filter. cbn [length bools]. rewrite total_app, !total_fmap, <- count_binom.
  assert (E : forall c, total (fun bs => if differ (y :: zs) (y :: zs) zs (c :: bs) then 1 else 0) (bools (length zs)) =
    if Bool.eqb c (Nat.odd (length zs)) then total (fun bs => if count_true bs =? length zs / 2 then 1 else 0) (bools (length zs)) else 0).
  { intros c. rewrite (total_ext _ (fun bs => if (count_true bs =? length zs / 2) && Bool.eqb c (Nat.odd (length zs)) then 1 else 0)).
    2: { intros bs Hb. apply bools_elem in Hb. by rewrite differ_extra. }
    destruct (Bool.eqb c _).
    - apply total_ext. intros bs _. by rewrite andb_true_r.
    - rewrite (total_ext _ (fun _ => 0)); [apply total_zero|]. intros bs _. by rewrite andb_false_r. }
  rewrite !E. destruct (Nat.odd (length zs)); cbn; lia.
Qed.
End Extra.
