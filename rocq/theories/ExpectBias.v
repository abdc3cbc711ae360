(** How often a tie occurs when token hashes are drawn independently. *)
From stdpp Require Import base list list_numbers.
From Coq Require Import NArith Lia.
From Verif Require Import ListFacts Base SpecExpect ExpectFacts ExpectSig.
Local Open Scope nat_scope.

Lemma total_bind {A B} (F : B -> nat) (g : A -> list B) (l : list A) :
  total F (l ≫= g) = total (fun x => total F (g x)) l.
Proof.
  assert (Happ : forall l1 l2 : list B, total F (l1 ++ l2) = total F l1 + total F l2).
  { induction l1 as [|y l1 IH]; intros l2; cbn; [done|]. rewrite IH. lia. }
  induction l as [|x l IH]; cbn; [done|]. rewrite Happ. by rewrite <- IH.
Qed.

Section Assign.
Context (vs : list N) (Hvs : NoDup vs).

Lemma assignments_elem m l : l ∈ assignments vs m <-> length l = m /\ forall v, v ∈ l -> v ∈ vs.
Proof.
  revert l. induction m as [|m IH]; intros l; cbn [assignments].
  - rewrite elem_of_list_singleton. split; [intros ->; split; [done|]; intros v []%elem_of_nil|].
    intros [Hl _]. by apply nil_length_inv.
  - rewrite elem_of_list_bind. setoid_rewrite elem_of_list_fmap. split.
    + intros (v & (l' & -> & Hl') & Hv). apply IH in Hl' as [<- Hin]. split; [done|].
      intros w [->|Hw]%elem_of_cons; auto.
    + intros [Hl Hin]. destruct l as [|v l]; [done|]. injection Hl as Hl. exists v. split.
      * exists l. split; [done|]. apply IH. split; [done|]. intros w Hw. apply Hin. by right.
      * apply Hin. left.
Qed.

Lemma assignments_nodup m : NoDup (assignments vs m).
Proof.
  induction m as [|m IH]; cbn [assignments]; [apply NoDup_singleton|].
  revert Hvs. generalize vs at 1 3. induction vs0 as [|v l IHl]; intros Hn; cbn; [constructor|].
  apply NoDup_cons in Hn as [Hv Hn]. apply NoDup_app. split.
  { apply NoDup_fmap_2; [|done]. intros a b E. by injection E. }
  split; [|by apply IHl].
  intros x (a & -> & _)%elem_of_list_fmap Hx. apply elem_of_list_bind in Hx as (w & (b & E & _)%elem_of_list_fmap & Hw).
  injection E as -> ->. done.
Qed.

Lemma assignments_length m : length (assignments vs m) = length vs ^ m.
Proof.
  induction m as [|m IH]; cbn [assignments]; [done|].
  assert (E : forall A (l : list A), length l = total (fun _ => 1) l) by (intros A l; rewrite total_const; lia).
  rewrite E, total_bind. rewrite (total_ext _ (fun _ => length vs ^ m)).
  - rewrite total_const. cbn. lia.
  - intros v _. rewrite <- E, fmap_length. done.
Qed.

Lemma assignments_impartial m : impartial m (assignments vs m).
Proof.
  split; [apply assignments_nodup|]. intros l Hl. apply assignments_elem in Hl as [Hl Hin]. split; [done|].
  intros l' Hp. apply assignments_elem. split; [by rewrite Hp|]. intros v Hv. apply Hin. by rewrite <- Hp.
Qed.

Context (f : N -> N) (c : nat).
Context (Hc : forall v, v ∈ vs -> length (List.filter (fun w => (f v =? f w)%N) vs) <= c).

Definition collide (i j : nat) (l : list N) : bool :=
  match l !! i, l !! j with Some v, Some w => (f v =? f w)%N | _, _ => false end.
Definition collisions (m i j : nat) : nat := total (fun l => if collide i j l then 1 else 0) (assignments vs m).

Lemma collisions_first m : collisions (S (S m)) 0 1 <= c * length vs ^ S m.
Proof.
  unfold collisions. cbn [assignments]. rewrite total_bind.
  transitivity (total (fun _ => c * length vs ^ m) vs); [|rewrite total_const; cbn; lia].
  apply total_le. intros v Hv. rewrite total_fmap, total_bind.
  transitivity (total (fun w => (if (f v =? f w)%N then 1 else 0) * length vs ^ m) vs).
  - apply total_le. intros w Hw. rewrite total_fmap. cbn.
    destruct (f v =? f w)%N; rewrite total_const, assignments_length; lia.
  - rewrite (total_ext _ (fun w => length vs ^ m * (if (f v =? f w)%N then 1 else 0))) by (intros; lia).
    rewrite total_mul, <- length_filter. specialize (Hc v Hv). nia.
Qed.

Lemma collisions_other m a b i j : a < m -> b < m -> collisions m i j = collisions m (other a b i) (other a b j).
Proof.
  intros Ha Hb. unfold collisions. destruct (impartial_at _ _ (assignments_impartial m)) as (H1 & H2 & H3).
  rewrite <- (total_perm _ _ _ (perm_swap_hs m _ H1 H2 H3 a b Ha Hb)), total_fmap.
  apply total_ext. intros l Hl. unfold collide. rewrite !swap_lookup by (rewrite (H2 l Hl); done). done.
Qed.

Lemma collisions_le m i j : i < m -> j < m -> i <> j -> length vs * collisions m i j <= c * length vs ^ m.
Proof.
  intros Hi Hj Hij. destruct m as [|[|m]]; [lia|lia|].
  assert (E : collisions (S (S m)) i j = collisions (S (S m)) 0 1).
  { rewrite (collisions_other (S (S m)) 0 i) by lia.
    assert (E1 : other 0 i i = 0). { unfold other. repeat case_decide; congruence. }
    assert (E2 : other 0 i j <> 0). { unfold other. repeat case_decide; congruence. }
    assert (E3 : other 0 i j < S (S m)). { unfold other. repeat case_decide; lia. }
    rewrite E1. set (j1 := other 0 i j) in *. rewrite (collisions_other (S (S m)) 1 j1) by lia.
    f_equal; unfold other; repeat case_decide; congruence. }
  rewrite E. pose proof (collisions_first m). cbn [Nat.pow] in *. nia.
Qed.

Fixpoint pairs (m : nat) : list (nat * nat) :=
  match m with 0 => [] | S m' => pairs m' ++ ((fun i => (i, m')) <$> seq 0 m') end.
Lemma pairs_length m : 2 * length (pairs m) = m * (m - 1).
Proof. induction m as [|m IH]; [done|]. cbn [pairs]. rewrite app_length, fmap_length, seq_length. destruct m; [done|]. cbn in *. lia. Qed.
Lemma pairs_elem m i j : (i, j) ∈ pairs m <-> i < j < m.
Proof.
  induction m as [|m IH]; cbn [pairs]; [rewrite elem_of_nil; lia|].
  rewrite elem_of_app, IH, elem_of_list_fmap. split.
  - intros [H|(i' & [= -> ->] & H)]; [lia|]. apply elem_of_seq in H. lia.
  - intros H. destruct (decide (j = m)) as [->|]; [right|left; lia]. exists i. split; [done|]. apply elem_of_seq. lia.
Qed.

Lemma tied_collide m l : length l = m -> tied f l -> exists i j, i < j < m /\ collide i j l = true.
Proof.
  intros Hm Ht. unfold tied in Ht. rewrite <- (ties_tied m f l Hm) in Ht. unfold ties in Ht.
  destruct (List.filter (least f l) (seq 0 m)) as [|i [|j r]] eqn:E; [cbn in Ht; lia|cbn in Ht; lia|].
  assert (Hn : NoDup (i :: j :: r)).
  { rewrite <- E. apply NoDup_ListNoDup, List.NoDup_filter, seq_NoDup. }
  assert (Hin : forall k, In k (i :: j :: r) -> k < m /\ least f l k = true).
  { intros k Hk. rewrite <- E in Hk. apply filter_In in Hk as [Hk Hl]. apply in_seq in Hk. lia || (split; [lia|done]). }
  destruct (Hin i) as [Hi Li]; [by left|]. destruct (Hin j) as [Hj Lj]; [by right; left|].
  assert (Hij : i <> j). { intros ->. apply NoDup_cons in Hn as [Hn _]. apply Hn. left. }
  assert (Hcol : collide i j l = true /\ collide j i l = true).
  { apply least_spec in Li as (v & Hv & Mv), Lj as (w & Hw & Mw). unfold collide. rewrite Hv, Hw.
    specialize (Mv w ltac:(by eapply elem_of_list_lookup_2)). specialize (Mw v ltac:(by eapply elem_of_list_lookup_2)).
    split; apply N.eqb_eq; lia. }
  destruct (decide (i < j)); [exists i, j|exists j, i]; (split; [lia|apply Hcol]).
Qed.

Lemma tied_le m : 2 * length vs * length (filter (tied f) (assignments vs m)) <= m * (m - 1) * c * length vs ^ m.
Proof.
  rewrite filter_bool, length_filter.
  transitivity (2 * length vs * total (fun l => total (fun p => if collide p.1 p.2 l then 1 else 0) (pairs m)) (assignments vs m)).
  - apply Nat.mul_le_mono_l, total_le. intros l Hl. case_bool_decide as Ht; [|lia].
    apply assignments_elem in Hl as [Hl _]. destruct (tied_collide m l Hl Ht) as (i & j & Hij & Hcol).
    apply pairs_elem, elem_of_list_split in Hij as (l1 & l2 & ->).
    rewrite (total_perm _ _ ((i, j) :: l1 ++ l2)); [|by rewrite Permutation_middle]. cbn. rewrite Hcol. lia.
  - rewrite total_swap_fun. rewrite <- (pairs_length m).
    enough (length vs * total (fun p => collisions m p.1 p.2) (pairs m) <= length (pairs m) * c * length vs ^ m) by (unfold collisions in *; nia).
    rewrite <- total_mul. transitivity (total (fun _ => c * length vs ^ m) (pairs m)); [|rewrite total_const; nia].
    apply total_le. intros [i j] Hp. apply pairs_elem in Hp. cbn. apply collisions_le; lia.
Qed.
End Assign.

Lemma values_below (M : N) (vs : list N) : NoDup vs -> (forall v, v ∈ vs <-> (v < M)%N) -> N.of_nat (length vs) = M.
Proof.
  intros Hn Hin. assert (Hp : vs ≡ₚ N.of_nat <$> seq 0 (N.to_nat M)).
  { apply NoDup_Permutation; [done| |].
    - apply NoDup_fmap_2; [|apply NoDup_seq]. intros a b. apply Nat2N.inj.
    - intros v. rewrite Hin, elem_of_list_fmap. split.
      + intros Hv. exists (N.to_nat v). rewrite elem_of_seq. split; [by rewrite N2Nat.id|lia].
      + intros (k & -> & Hk). apply elem_of_seq in Hk. lia. }
  rewrite Hp, fmap_length, seq_length. apply N2Nat.id.
Qed.
Lemma values_exist (M : N) : exists vs : list N, NoDup vs /\ forall v, v ∈ vs <-> (v < M)%N.
Proof.
  exists (N.of_nat <$> seq 0 (N.to_nat M)). split.
  - apply NoDup_fmap_2; [|apply NoDup_seq]. intros a b. apply Nat2N.inj.
  - intros v. rewrite elem_of_list_fmap. split.
    + intros (k & -> & Hk). apply elem_of_seq in Hk. lia.
    + intros Hv. exists (N.to_nat v). rewrite elem_of_seq. split; [by rewrite N2Nat.id|lia].
Qed.
