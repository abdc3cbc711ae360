(** Counting behind C66: over all ways to hand out hash values to tokens every token has the least
    value equally often. *)
From stdpp Require Import base list list_numbers.
From Coq Require Import NArith Arith.Factorial Lia.
Local Open Scope nat_scope.

Fixpoint total {A} (F : A -> nat) (l : list A) : nat :=
  match l with [] => 0 | x :: l => F x + total F l end.

Section Total.
Context {A : Type}.
Implicit Types (F G : A -> nat) (l : list A).

Lemma total_perm F l l' : l ≡ₚ l' -> total F l = total F l'.
Proof. induction 1; cbn; lia. Qed.
Lemma total_le F G l : (forall x, x ∈ l -> F x <= G x) -> total F l <= total G l.
Proof.
  induction l as [|x l IH]; intros Hl; cbn; [done|].
  specialize (IH (fun y Hy => Hl y (elem_of_list_further _ _ _ Hy))). specialize (Hl x (elem_of_list_here _ _)). lia.
Qed.
Lemma total_ext F G l : (forall x, x ∈ l -> F x = G x) -> total F l = total G l.
Proof. intros Hl. apply Nat.le_antisymm; apply total_le; intros x Hx; by rewrite (Hl x Hx). Qed.
Lemma total_plus F G l : total (fun x => F x + G x) l = total F l + total G l.
Proof. induction l as [|x l IH]; cbn; lia. Qed.
Lemma total_mul c F l : total (fun x => c * F x) l = c * total F l.
Proof. induction l as [|x l IH]; cbn; lia. Qed.
Lemma total_const c l : total (fun _ => c) l = c * length l.
Proof. induction l as [|x l IH]; cbn; lia. Qed.
Lemma total_fmap {B} (g : B -> A) F (l : list B) : total F (g <$> l) = total (fun x => F (g x)) l.
Proof. induction l as [|x l IH]; cbn; [done|]. by rewrite <- IH. Qed.
Lemma total_filter (p : A -> bool) F l : total F (List.filter p l) = total (fun x => if p x then F x else 0) l.
Proof. induction l as [|x l IH]; cbn; [done|]. destruct (p x); cbn; lia. Qed.
Lemma length_filter (p : A -> bool) l : length (List.filter p l) = total (fun x => if p x then 1 else 0) l.
Proof. induction l as [|x l IH]; cbn; [done|]. destruct (p x); cbn; lia. Qed.
Lemma total_zero l : total (fun _ => 0) l = 0.
Proof. induction l; cbn; lia. Qed.
End Total.

Lemma total_swap_fun {A B} (F : A -> B -> nat) (l : list A) (l' : list B) :
  total (fun x => total (F x) l') l = total (fun y => total (fun x => F x y) l) l'.
Proof.
  induction l as [|x l IH]; cbn; [by rewrite total_zero|]. rewrite IH. by rewrite <- total_plus.
Qed.

Lemma divide_fact k m : 1 <= k <= m -> fact m = k * (fact m / k).
Proof.
  intros Hk. assert (Hd : exists c, fact m = k * c).
  { induction m as [|m IH]; [lia|]. destruct (decide (k = S m)) as [->|Hne].
    - by exists (fact m).
    - destruct IH as [c Hc]; [lia|]. exists (S m * c). cbn [fact]. rewrite Hc. lia. }
  destruct Hd as [c Hc]. rewrite Hc, (Nat.mul_comm k c), Nat.div_mul by lia. lia.
Qed.

Section Count.
Context (m : nat) (hs : list (list N)) (f : N -> N).
Context (Hnd : NoDup hs) (Hlen : forall l, l ∈ hs -> length l = m).
Context (Hperm : forall l l', l ∈ hs -> l' ≡ₚ l -> l' ∈ hs).
Implicit Types l : list N.

Definition least l (j : nat) : bool :=
  match l !! j with Some x => forallb (fun y => (f x <=? f y)%N) l | None => false end.
Definition ties l : nat := length (List.filter (least l) (seq 0 m)).

(** Exchange of two values. *)
Definition swap (i j : nat) l : list N :=
  match l !! i, l !! j with Some x, Some y => <[i := y]> (<[j := x]> l) | _, _ => l end.
Definition other (i j k : nat) : nat := if decide (k = i) then j else if decide (k = j) then i else k.

Lemma swap_lookup i j l k : i < length l -> j < length l -> swap i j l !! k = l !! other i j k.
Proof.
  intros Hi Hj. unfold swap, other.
  destruct (lookup_lt_is_Some_2 l i Hi) as [x Ex], (lookup_lt_is_Some_2 l j Hj) as [y Ey]. rewrite Ex, Ey.
  destruct (decide (k = i)) as [->|Hki].
  - rewrite list_lookup_insert by (by rewrite insert_length). done.
  - rewrite list_lookup_insert_ne by done. destruct (decide (k = j)) as [->|Hkj].
    + rewrite list_lookup_insert by done. done.
    + by rewrite list_lookup_insert_ne.
Qed.

Lemma other_other i j k : other i j (other i j k) = k.
Proof. unfold other. repeat case_decide; congruence. Qed.

Lemma other_lt i j k n : i < n -> j < n -> k < n <-> other i j k < n.
Proof. intros Hi Hj. unfold other. repeat case_decide; lia. Qed.

Lemma swap_length i j l : length (swap i j l) = length l.
Proof. unfold swap. destruct (l !! i), (l !! j); rewrite ?insert_length; done. Qed.

Lemma swap_swap i j l : i < length l -> j < length l -> swap i j (swap i j l) = l.
Proof.
  intros Hi Hj. apply list_eq. intros k. rewrite !swap_lookup, other_other by (by rewrite ?swap_length). done.
Qed.

Lemma swap_perm i j l : i < length l -> j < length l -> swap i j l ≡ₚ l.
Proof.
  intros Hi Hj. apply (Permutation_inj _ _). split; [apply swap_length|].
  exists (other i j). split.
  - intros a b E. rewrite <- (other_other i j a), E. apply other_other.
  - intros k. by rewrite swap_lookup, ?other_other.
Qed.

Lemma perm_swap_hs i j : i < m -> j < m -> swap i j <$> hs ≡ₚ hs.
Proof.
  intros Hi Hj. assert (Hin : forall l, l ∈ swap i j <$> hs <-> l ∈ hs).
  { intros l. rewrite elem_of_list_fmap. split.
    - intros (l' & -> & Hl). apply (Hperm l'); [done|]. apply swap_perm; rewrite Hlen; done.
    - intros Hl. exists (swap i j l). rewrite swap_swap by (rewrite Hlen; done). split; [done|].
      apply (Hperm l); [done|]. apply swap_perm; rewrite Hlen; done. }
  apply NoDup_Permutation; [|done|done].
  apply NoDup_fmap_2_strong; [|done]. intros l l' Hl Hl' E.
  rewrite <- (swap_swap i j l), E, swap_swap; by rewrite ?Hlen.
Qed.

Lemma least_spec l j : least l j = true <-> exists x, l !! j = Some x /\ forall y, y ∈ l -> (f x <= f y)%N.
Proof.
  unfold least. destruct (l !! j) as [x|].
  - rewrite forallb_forall. split.
    + intros Hl. exists x. split; [done|]. intros y Hy. apply N.leb_le, Hl. by apply elem_of_list_In.
    + intros (x' & [= <-] & Hl) y Hy. apply N.leb_le, Hl. by apply elem_of_list_In.
  - split; [done|]. by intros (? & ? & _).
Qed.

Lemma least_swap i j k l : i < length l -> j < length l -> least (swap i j l) k = least l (other i j k).
Proof.
  intros Hi Hj. apply Bool.eq_iff_eq_true. rewrite !least_spec, swap_lookup by done.
  pose proof (swap_perm i j l Hi Hj) as Hp. by setoid_rewrite Hp.
Qed.

Lemma ties_swap i j l : l ∈ hs -> i < m -> j < m -> ties (swap i j l) = ties l.
Proof.
  intros Hl Hi Hj. unfold ties. rewrite !length_filter.
  rewrite (total_ext _ (fun k => (fun k => if least l k then 1 else 0) (other i j k))).
  2: { intros k _. rewrite least_swap by (by rewrite Hlen). done. }
  rewrite <- (total_fmap (other i j) (fun k => if least l k then 1 else 0)). apply total_perm.
  apply NoDup_Permutation.
  - apply NoDup_fmap_2; [|apply NoDup_seq]. intros a b E. rewrite <- (other_other i j a), E. apply other_other.
  - apply NoDup_seq.
  - intros k. rewrite elem_of_list_fmap. rewrite elem_of_seq. split.
    + intros (k' & -> & Hk). apply elem_of_seq in Hk. pose proof (other_lt i j k' m Hi Hj). lia.
    + intros Hk. exists (other i j k). rewrite other_other, elem_of_seq. split; [done|].
      pose proof (other_lt i j k m Hi Hj). lia.
Qed.

Lemma ties_bound l : l ∈ hs -> 0 < m -> 1 <= ties l <= m.
Proof.
  intros Hl Hm. split.
  - assert (He : exists j, j < m /\ least l j = true).
    { assert (Hx : exists x, x ∈ l /\ forall y, y ∈ l -> (f x <= f y)%N).
      { pose proof (Hlen l Hl) as E. clear Hl. rewrite <- E in Hm. clear E.
        induction l as [|x [|y l] IH]; [cbn in Hm; lia| |].
        - exists x. split; [left|]. intros y Hy%elem_of_list_singleton. by subst.
        - destruct IH as (z & Hz & Hmin); [cbn; lia|]. destruct (N.le_ge_cases (f x) (f z)) as [Hle|Hge].
          + exists x. split; [left|]. intros u [->|Hu]%elem_of_cons; [done|]. specialize (Hmin u Hu). lia.
          + exists z. split; [by right|]. intros u [->|Hu]%elem_of_cons; [done|]. by apply Hmin. }
      destruct Hx as (x & Hx & Hmin). apply elem_of_list_lookup in Hx as [j Hj]. exists j. split.
      - rewrite <- (Hlen l Hl). by eapply lookup_lt_Some.
      - apply least_spec. eauto. }
    destruct He as (j & Hj & Hjl). unfold ties.
    assert (Hin : In j (List.filter (least l) (seq 0 m))).
    { apply filter_In. split; [apply in_seq; lia|done]. }
    destruct (List.filter (least l) (seq 0 m)); [done|cbn; lia].
  - unfold ties. rewrite length_filter. etrans; [apply (total_le _ (fun _ => 1))|].
    + intros j _. destruct (least l j); lia.
    + rewrite total_const, seq_length. lia.
Qed.

(** The weight of an assignment, the same for all tokens that tie. *)
Definition weight l : nat := fact m / ties l.
Definition share (j : nat) : nat := total (fun l => if least l j then weight l else 0) hs.

Lemma share_swap i j : i < m -> j < m -> share i = share j.
Proof.
  intros Hi Hj. unfold share. rewrite <- (total_perm _ _ _ (perm_swap_hs i j Hi Hj)), total_fmap.
  apply total_ext. intros l Hl. rewrite least_swap by (by rewrite Hlen). unfold weight.
  rewrite ties_swap by done. unfold other. by rewrite decide_True.
Qed.

Lemma share_all : 0 < m -> m * share 0 = fact m * length hs.
Proof.
  intros Hm. transitivity (total share (seq 0 m)).
  - rewrite (total_ext share (fun _ => share 0)), total_const, seq_length; [lia|].
    intros j Hj. apply elem_of_seq in Hj. apply share_swap; lia.
  - unfold share. rewrite (total_swap_fun (fun j l => if least l j then weight l else 0)).
    rewrite (total_ext _ (fun _ => fact m)), total_const; [done|].
    intros l Hl. rewrite (total_ext _ (fun j => weight l * if least l j then 1 else 0)).
    2: { intros j _. destruct (least l j); lia. }
    rewrite total_mul, <- length_filter. fold (ties l). unfold weight.
    rewrite Nat.mul_comm. symmetry. apply divide_fact. by apply ties_bound.
Qed.

Context (J : nat -> bool) (agree : list N -> bool).
Notation shared := (length (List.filter J (seq 0 m))).

Lemma shares : 0 < m -> total (fun j => if J j then share j else 0) (seq 0 m) = shared * share 0.
Proof.
  intros Hm. rewrite length_filter, Nat.mul_comm, <- total_mul. apply total_ext.
  intros j Hj. apply elem_of_seq in Hj. destruct (J j); [|lia]. rewrite (share_swap j 0) by lia. lia.
Qed.

Lemma shares_by_l : total (fun j => if J j then share j else 0) (seq 0 m) =
  total (fun l => total (fun j => if J j && least l j then weight l else 0) (seq 0 m)) hs.
Proof.
  rewrite total_swap_fun. apply total_ext. intros j _. unfold share.
  destruct (J j); cbn; [done|]. by rewrite total_zero.
Qed.

Lemma by_l_ties l : total (fun j => if J j && least l j then weight l else 0) (seq 0 m) <= weight l * ties l.
Proof.
  unfold ties. rewrite length_filter, <- total_mul. apply total_le. intros j _. destruct (J j), (least l j); cbn; lia.
Qed.

Lemma fact_pos : 0 < fact m.
Proof. apply lt_O_fact. Qed.

Lemma count_lower :
  (forall l j, l ∈ hs -> j < m -> J j = true -> least l j = true -> agree l = true) ->
  shared * length hs <= m * length (List.filter agree hs).
Proof.
  intros Ha. destruct (decide (m = 0)) as [->|Hm]; [cbn; lia|]. assert (Hm' : 0 < m) by lia.
  apply (Nat.mul_le_mono_pos_l _ _ (fact m) fact_pos).
  transitivity (m * (shared * share 0)).
  { pose proof (share_all Hm'). nia. }
  rewrite <- shares, shares_by_l by done.
  enough (total (fun l => total (fun j => if J j && least l j then weight l else 0) (seq 0 m)) hs
          <= fact m * length (List.filter agree hs)) by nia.
  rewrite length_filter, <- total_mul. apply total_le. intros l Hl. destruct (agree l) eqn:El.
  - etrans; [apply by_l_ties|]. unfold weight. pose proof (divide_fact (ties l) m (ties_bound l Hl Hm')). lia.
  - rewrite (total_ext _ (fun _ => 0)); [by rewrite total_zero, Nat.mul_0_r|].
    intros j Hj. apply elem_of_seq in Hj. destruct (J j) eqn:EJ, (least l j) eqn:El'; try done.
    rewrite (Ha l j) in El; [done|done|lia|done|done].
Qed.

Lemma count_upper (tie : list N -> bool) :
  (forall l, l ∈ hs -> agree l = true -> tie l = true \/ (ties l = 1 /\ exists j, j < m /\ J j = true /\ least l j = true)) ->
  m * length (List.filter agree hs) <= shared * length hs + m * length (List.filter tie hs).
Proof.
  intros Ha. destruct (decide (m = 0)) as [->|Hm]; [cbn; lia|]. assert (Hm' : 0 < m) by lia.
  apply (Nat.mul_le_mono_pos_l _ _ (fact m) fact_pos).
  transitivity (m * (shared * share 0) + m * (fact m * length (List.filter tie hs))).
  2: { pose proof (share_all Hm'). nia. }
  rewrite <- shares, shares_by_l by done.
  enough (fact m * length (List.filter agree hs) <=
    total (fun l => total (fun j => if J j && least l j then weight l else 0) (seq 0 m)) hs
    + fact m * length (List.filter tie hs)) by nia.
  rewrite !length_filter, <- !total_mul, <- total_plus. apply total_le. intros l Hl. destruct (agree l) eqn:El; [|lia].
  destruct (Ha l Hl El) as [->|(Ht & j & Hj & HJ & Hl')]; [lia|].
  enough (fact m <= total (fun j => if J j && least l j then weight l else 0) (seq 0 m)) by lia.
  assert (Hw : weight l = fact m) by (unfold weight; rewrite Ht; apply Nat.div_1_r).
  assert (Hin : j ∈ seq 0 m) by (apply elem_of_seq; lia).
  apply elem_of_list_split in Hin as (l1 & l2 & ->).
  rewrite (total_perm _ _ (j :: l1 ++ l2)); [|by rewrite Permutation_middle].
  cbn. rewrite HJ, Hl'. cbn. lia.
Qed.
End Count.
