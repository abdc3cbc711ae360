(** Counting tuples (C69, C70). *)
From stdpp Require Import base list list_numbers.
From Coq Require Import NArith ZArith Arith Lia.
From Verif Require Import ListFacts SpecTuples ExpectFacts SimExpect.
Local Open Scope nat_scope.

Lemma total_app {A} (G : A -> nat) l l' : total G (l ++ l') = total G l + total G l'.
Proof. induction l as [|x l IH]; cbn; lia. Qed.
Lemma total_bind {A B} (g : B -> list A) (G : A -> nat) (l : list B) : total G (l ≫= g) = total (fun x => total G (g x)) l.
Proof. induction l as [|x l IH]; cbn; [done|]. rewrite total_app. by rewrite <- IH. Qed.

Section Tuples.
Context {A : Type} (F : list A).

Lemma tuples_total G n : total G (tuples F (S n)) = total (fun x => total (fun l => G (x :: l)) (tuples F n)) F.
Proof. cbn [tuples]. rewrite total_bind. apply total_ext. intros x _. by rewrite total_fmap. Qed.
Lemma tuples_totalZ G n : totalZ G (tuples F (S n)) = totalZ (fun x => totalZ (fun l => G (x :: l)) (tuples F n)) F.
Proof. cbn [tuples]. rewrite totalZ_bind. apply totalZ_ext. intros x _. by rewrite totalZ_fmap. Qed.

Lemma tuples_count n : length (tuples F n) = length F ^ n.
Proof.
  assert (E : forall B (l : list B), length l = total (fun _ => 1) l) by (intros B l; rewrite total_const; lia).
  induction n as [|n IH]; [done|]. rewrite E, tuples_total.
  rewrite (total_ext _ (fun _ => length F ^ n)) by (intros x _; by rewrite total_const, IH, Nat.mul_1_l).
  rewrite total_const. cbn. lia.
Qed.
Lemma tuples_elem n l : l ∈ tuples F n -> length l = n /\ Forall (fun x => x ∈ F) l.
Proof.
  revert l. induction n as [|n IH]; intros l; cbn [tuples].
  - intros ->%elem_of_list_singleton. done.
  - intros (x & (l' & -> & Hl)%elem_of_list_fmap & Hx)%elem_of_list_bind. destruct (IH l' Hl) as [H1 H2].
    split; [cbn; lia|]. by constructor.
Qed.
Lemma tuples_app G n p : total G (tuples F (n + p)) =
  total (fun l => total (fun l' => G (l ++ l')) (tuples F p)) (tuples F n).
Proof.
  revert G. induction n as [|n IH]; intros G; [symmetry; apply Nat.add_0_r|].
  change (S n + p) with (S (n + p)). rewrite !tuples_total. apply total_ext. intros x _. by rewrite IH.
Qed.

Context (f : A -> bool).
Notation a := (length (List.filter f F)).
Notation ones := (fun l => length (List.filter f l)).

Lemma ones_le l : ones l <= length l.
Proof. induction l as [|x l IH]; cbn; [done|]. destruct (f x); cbn; lia. Qed.
Lemma split_f (G : bool -> nat) : total (fun x => G (f x)) F = a * G true + (length F - a) * G false.
Proof.
  induction F as [|x l IH]; [done|]. cbn [total List.filter]. rewrite IH. pose proof (ones_le l).
  destruct (f x); cbn [length]; [rewrite Nat.sub_succ; lia|]. rewrite Nat.sub_succ_l by done. lia.
Qed.

(** Exactly [k] hits. *)
Lemma binomial n k : total (fun l => if ones l =? k then 1 else 0) (tuples F n) =
  binom n k * (a ^ k * (length F - a) ^ (n - k)).
Proof.
  revert k. induction n as [|n IH]; intros k.
  - destruct k; cbn; lia.
  - rewrite tuples_total.
    set (G := fun b : bool => total (fun l => if (if b then S (ones l) else ones l) =? k then 1 else 0) (tuples F n)).
    rewrite (total_ext _ (fun x => G (f x))).
    2: { intros x _. apply total_ext. intros l _. cbn [List.filter]. by destruct (f x). }
    rewrite (split_f G). subst G. cbn beta iota. destruct k as [|k].
    + rewrite (total_ext _ (fun _ => 0)) by done. rewrite total_zero, (IH 0), !Nat.sub_0_r. destruct n; cbn; lia.
    + cbn [Nat.eqb]. rewrite (IH k), (IH (S k)). cbn [binom]. change (S n - S k) with (n - k).
      destruct (Nat.le_gt_cases (S k) n) as [Hk|Hk].
      * replace (n - k) with (S (n - S k)) by lia. cbn [Nat.pow]. lia.
      * assert (E : binom n (S k) = 0).
        { clear -Hk. revert k Hk. induction n as [|n IH]; intros k Hk; [done|]. destruct k as [|k]; [lia|].
          cbn [binom]. rewrite !IH by lia. done. }
        rewrite E. cbn [Nat.pow]. lia.
Qed.

(** The mean number of hits. *)
Lemma mean_ones n : length F * total ones (tuples F n) = n * (a * length F ^ n).
Proof.
  induction n as [|n IH]; [cbn; lia|]. rewrite tuples_total.
  set (G := fun b : bool => (if b then length (tuples F n) else 0) + total ones (tuples F n)).
  rewrite (total_ext _ (fun x => G (f x))).
  2: { intros x _. rewrite (total_ext _ (fun l => (if f x then 1 else 0) + ones l)).
       - rewrite total_plus, total_const. subst G. cbn beta. destruct (f x); lia.
       - intros l _. cbn [List.filter]. by destruct (f x). }
  rewrite (split_f G). subst G. cbn beta iota. rewrite tuples_count. cbn [Nat.pow]. pose proof (ones_le F). nia.
Qed.

(** The variance. *)
Lemma split_fZ (G : bool -> Z) : totalZ (fun x => G (f x)) F = (Z.of_nat a * G true + (Z.of_nat (length F) - Z.of_nat a) * G false)%Z.
Proof.
  induction F as [|x l IH]; [done|]. cbn [totalZ List.filter]. rewrite IH.
  destruct (f x); cbn [length]; lia.
Qed.
Notation dev n l := (Z.of_nat (length F) * Z.of_nat (ones l) - Z.of_nat n * Z.of_nat a)%Z.
Lemma dev_mean n : totalZ (fun l => dev n l) (tuples F n) = 0%Z.
Proof.
  rewrite (totalZ_ext _ (fun l => Z.of_nat (length F) * Z.of_nat (ones l) + - (Z.of_nat n * Z.of_nat a)))%Z by (intros; lia).
  rewrite totalZ_plus, totalZ_mul, totalZ_of_nat, totalZ_const, tuples_count.
  pose proof (mean_ones n). nia.
Qed.
Lemma variance n : totalZ (fun l => dev n l * dev n l)%Z (tuples F n) =
  (Z.of_nat n * (Z.of_nat a * (Z.of_nat (length F) - Z.of_nat a)) * Z.of_nat (length F ^ n))%Z.
Proof.
  induction n as [|n IH]; [cbn; lia|]. rewrite tuples_totalZ.
  set (h := fun b : bool => (Z.of_nat (length F) * (if b then 1 else 0) - Z.of_nat a)%Z).
  set (G := fun b => (h b * h b * Z.of_nat (length F ^ n) + totalZ (fun l => dev n l * dev n l) (tuples F n))%Z).
  rewrite (totalZ_ext _ (fun x => G (f x))).
  2: { intros x _.
       rewrite (totalZ_ext _ (fun l => h (f x) * h (f x) + (2 * h (f x) * dev n l + dev n l * dev n l)))%Z.
       - rewrite totalZ_plus, totalZ_const, totalZ_plus, totalZ_mul, dev_mean, tuples_count. subst G. cbn beta. ring.
       - intros l _. cbn [List.filter]. unfold h. destruct (f x); cbn [length]; nia. }
  rewrite (split_fZ G). subst G. cbn beta. rewrite IH. unfold h. cbn [Nat.pow]. rewrite Nat2Z.inj_mul, (Nat2Z.inj_succ n). unfold Z.succ. ring.
Qed.
Lemma apart_square l n : (Z.of_nat (apart (length F * ones l) (n * a)) * Z.of_nat (apart (length F * ones l) (n * a)) = dev n l * dev n l)%Z.
Proof.
  unfold apart. destruct (Nat.le_ge_cases (length F * ones l) (n * a)) as [Hc|Hc].
  - rewrite (proj2 (Nat.sub_0_le _ _) Hc), Nat.add_0_l, Nat2Z.inj_sub by done. rewrite !Nat2Z.inj_mul. ring.
  - rewrite (proj2 (Nat.sub_0_le (n * a) _) Hc), Nat.add_0_r, Nat2Z.inj_sub by done. rewrite !Nat2Z.inj_mul. ring.
Qed.
Lemma square_sum n : total (fun l => apart (length F * ones l) (n * a) * apart (length F * ones l) (n * a)) (tuples F n) =
  n * (a * (length F - a)) * length F ^ n.
Proof.
  pose proof (ones_le F). apply Nat2Z.inj. rewrite !Nat2Z.inj_mul, Nat2Z.inj_sub by done. rewrite <- variance.
  rewrite <- totalZ_of_nat. apply totalZ_ext. intros l _. rewrite Nat2Z.inj_mul. apply apart_square.
Qed.
Lemma chebyshev n t : t * t * total (fun l => if t <=? apart (length F * ones l) (n * a) then 1 else 0) (tuples F n)
  <= n * (a * (length F - a)) * length F ^ n.
Proof.
  pose proof (ones_le F). apply Nat2Z.inj_le. rewrite !Nat2Z.inj_mul, Nat2Z.inj_sub by done. rewrite <- variance.
  rewrite <- totalZ_of_nat, <- totalZ_mul. apply totalZ_le. intros l _.
  destruct (Nat.leb_spec t (apart (length F * ones l) (n * a))) as [Ht|Ht]; [|rewrite Z.mul_0_r; apply Z.square_nonneg].
  rewrite <- apart_square. nia.
Qed.

(** The generating function of the number of hits, and the tails. *)
Lemma generating u v n : total (fun l => u ^ ones l * v ^ (length l - ones l)) (tuples F n) = (u * a + v * (length F - a)) ^ n.
Proof.
  induction n as [|n IH]; [done|]. rewrite tuples_total.
  set (G := fun b : bool => (if b then u else v) * (u * a + v * (length F - a)) ^ n).
  rewrite (total_ext _ (fun x => G (f x))).
  2: { intros x _. subst G. cbn beta. rewrite <- IH, <- total_mul. apply total_ext. intros l _. cbn [List.filter length].
       pose proof (ones_le l). destruct (f x); cbn [length].
       - rewrite Nat.sub_succ. cbn [Nat.pow]. ring.
       - replace (S (length l) - ones l) with (S (length l - ones l)) by lia. cbn [Nat.pow]. ring. }
  rewrite (split_f G). subst G. cbn beta iota. cbn [Nat.pow]. ring.
Qed.
Lemma pow_trade u v n k j : v <= u -> k <= j <= n -> u ^ k * v ^ (n - k) <= u ^ j * v ^ (n - j).
Proof.
  intros Huv Hj. replace (n - k) with ((j - k) + (n - j)) by lia. replace (u ^ j) with (u ^ k * u ^ (j - k)) by (rewrite <- Nat.pow_add_r; f_equal; lia).
  rewrite Nat.pow_add_r, <- Nat.mul_assoc. apply Nat.mul_le_mono_l, Nat.mul_le_mono_r. by apply Nat.pow_le_mono_l.
Qed.
Lemma tail_above u v n k : v <= u -> u ^ k * v ^ (n - k) * total (fun l => if k <=? ones l then 1 else 0) (tuples F n) <= (u * a + v * (length F - a)) ^ n.
Proof.
  intros Huv. rewrite <- generating, <- total_mul. apply total_le. intros l Hl. apply tuples_elem in Hl as [Hl _].
  pose proof (ones_le l). destruct (Nat.leb_spec k (ones l)); [|lia]. rewrite Nat.mul_1_r, Hl. apply pow_trade; [done|lia].
Qed.
Lemma tail_below u v n k : u <= v -> k <= n -> u ^ k * v ^ (n - k) * total (fun l => if ones l <=? k then 1 else 0) (tuples F n) <= (u * a + v * (length F - a)) ^ n.
Proof.
  intros Huv Hk. rewrite <- generating, <- total_mul. apply total_le. intros l Hl. apply tuples_elem in Hl as [Hl _].
  pose proof (ones_le l). destruct (Nat.leb_spec (ones l) k); [|lia]. rewrite Nat.mul_1_r, Hl.
  pose proof (pow_trade v u n (n - k) (n - ones l) Huv ltac:(lia)) as Hp.
  replace (n - (n - k)) with k in Hp by lia. replace (n - (n - ones l)) with (ones l) in Hp by lia. lia.
Qed.

(** Some block of [r] consists of hits. *)
Lemma all_hits r : total (fun l => if forallb f l then 1 else 0) (tuples F r) = a ^ r.
Proof.
  induction r as [|r IH]; [done|]. rewrite tuples_total.
  set (G := fun b : bool => if b then a ^ r else 0).
  rewrite (total_ext _ (fun x => G (f x))).
  - rewrite (split_f G). subst G. cbn [Nat.pow]. lia.
  - intros x _. cbn [forallb]. subst G. cbn beta. destruct (f x); cbn [andb]; [done|]. apply total_zero.
Qed.
Fixpoint no_block (r b : nat) (l : list A) : bool :=
  match b with 0 => true | S b' => negb (forallb f (take r l)) && no_block r b' (drop r l) end.
Lemma no_hits r b : total (fun l => if no_block r b l then 1 else 0) (tuples F (b * r)) = (length F ^ r - a ^ r) ^ b.
Proof.
  induction b as [|b IH]; [done|]. cbn [Nat.mul]. rewrite tuples_app.
  rewrite (total_ext _ (fun l => (length F ^ r - a ^ r) ^ b * (if forallb f l then 0 else 1))).
  - rewrite total_mul. cbn [Nat.pow]. rewrite Nat.mul_comm. f_equal.
    assert (E : total (fun l => if forallb f l then 0 else 1) (tuples F r) + a ^ r = length F ^ r); [|lia].
    rewrite <- all_hits, <- total_plus. rewrite (total_ext _ (fun _ => 1)) by (intros l _; by destruct (forallb f l)).
    rewrite total_const, tuples_count. lia.
  - intros l Hl. apply tuples_elem in Hl as [Hl _]. rewrite <- IH.
    destruct (forallb f l) eqn:E.
    + rewrite Nat.mul_0_r. rewrite (total_ext _ (fun _ => 0)); [apply total_zero|]. intros l' _.
      cbn [no_block]. by rewrite <- Hl, take_app, E.
    + rewrite Nat.mul_1_r. apply total_ext. intros l' _. cbn [no_block].
      by rewrite <- Hl, take_app, drop_app, E.
Qed.
End Tuples.
