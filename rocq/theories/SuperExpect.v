(** Agreement of SuperMinHash signatures, averaged over token hashes. *)
From stdpp Require Import base list list_numbers.
From Coq Require Import NArith Lia.
From Verif Require Import ListFacts Base Float SpecIndex SimilarityFacts SpecExpect ExpectFacts ExpectSig
  SuperMinHash SpecSuper SuperFloat SuperFacts SpecTuples TupleFacts.
Local Open Scope nat_scope.

(** ** The least value of a function of the token hashes *)
Section Least.
Context {U : Type} `{EqDecision U}.
Context (us xs ys : list U) (hs : list (list N)).
Context (Hus : union_of us xs ys) (Hhs : impartial (length us) hs).
Context (f : N -> N) (Hf : forall x, (f x < 100000000)%N).
Notation val l zs := (SpecSuper.least (f <$> (given us l <$> zs))).

Lemma val_token l zs : zs <> [] -> exists u, u ∈ zs /\ val l zs = f (given us l u) /\
  forall w, w ∈ zs -> (f (given us l u) <= f (given us l w))%N.
Proof.
  intros Hz. destruct (SuperFacts.least_spec (f <$> (given us l <$> zs))) as [Hb Hc].
  assert (Hle : forall w, w ∈ zs -> (val l zs <= f (given us l w))%N).
  { intros w Hw. apply least_le. apply elem_of_list_fmap. exists (given us l w). split; [done|]. apply elem_of_list_fmap. eauto. }
  destruct Hc as [Hc|Hc].
  - destruct zs as [|z zs]; [done|]. specialize (Hle z ltac:(left)). pose proof (Hf (given us l z)). lia.
  - apply elem_of_list_fmap in Hc as (x & E & Hx). apply elem_of_list_fmap in Hx as (u & -> & Hu).
    exists u. split; [done|]. rewrite <- E. auto.
Qed.

Lemma val_lower : in_both us xs ys * length hs <= length us * length (filter (fun l => val l xs = val l ys) hs).
Proof.
  destruct (impartial_at _ _ Hhs) as (H1 & H2 & H3). destruct Hus as [Hnd Hin].
  rewrite shared_index, filter_bool. apply (count_lower (length us) hs f); try done.
  intros l j Hl Hj HJ Hleast. apply bool_decide_eq_true. destruct (us !! j) as [u|] eqn:Eu; [|done].
  apply bool_decide_eq_true in HJ as [Hx Hy]. apply ExpectFacts.least_spec in Hleast as (v & Hv & Hmin).
  assert (Eg := given_lookup us l j u v Hnd Eu Hv).
  assert (Hall : forall w, w ∈ us -> (f v <= f (given us l w))%N).
  { intros w [j' Hj']%elem_of_list_lookup. destruct (lookup_lt_is_Some_2 l j') as [v' Hv'].
    { rewrite (H2 l Hl). by eapply lookup_lt_Some. }
    rewrite (given_lookup us l j' w v' Hnd Hj' Hv'). apply Hmin. by eapply elem_of_list_lookup_2. }
  assert (E : forall zs, (forall z, z ∈ zs -> z ∈ us) -> u ∈ zs -> val l zs = f v).
  { intros zs Hzs Hu. destruct (val_token l zs) as (w & Hw & -> & Hmin'); [intros ->; by apply elem_of_nil in Hu|].
    pose proof (Hmin' u Hu). specialize (Hall w (Hzs w Hw)). rewrite Eg in *. lia. }
  rewrite !E; [done| |done| |done]; intros z Hz; apply Hin; auto.
Qed.

Lemma val_upper : length us * length (filter (fun l => val l xs = val l ys) hs) <=
  in_both us xs ys * length hs + length us * length (filter (tied f) hs).
Proof.
  destruct (impartial_at _ _ Hhs) as (H1 & H2 & H3). destruct Hus as [Hnd Hin].
  destruct (decide (us = [])) as [->|Hne]; [cbn; lia|].
  rewrite shared_index, !(filter_bool _ hs). apply (count_upper (length us) hs f); try done.
  intros l Hl Hsame. apply bool_decide_eq_true in Hsame.
  destruct (bool_decide (tied f l)) eqn:Et; [by left|right]. apply bool_decide_eq_false in Et.
  assert (Hbig : forall zs, zs = [] -> val l zs = 100000000%N) by (by intros ? ->).
  assert (Hsmall : forall zs, zs <> [] -> (val l zs < 100000000)%N).
  { intros zs Hz. destruct (val_token l zs Hz) as (w & _ & -> & _). apply Hf. }
  assert (Hx0 : xs <> []).
  { intros Hx. destruct (decide (ys = [])) as [Hy|Hy].
    - apply Hne. apply elem_of_nil_inv. intros u Hu. apply Hin in Hu. subst. set_solver.
    - specialize (Hsmall ys Hy). rewrite (Hbig xs Hx) in Hsame. lia. }
  assert (Hy0 : ys <> []).
  { intros Hy. specialize (Hsmall xs Hx0). rewrite (Hbig ys Hy) in Hsame. lia. }
  destruct (val_token l xs Hx0) as (u & Hu & Hvu & Hwm). destruct (val_token l ys Hy0) as (u' & Hu' & Hvu' & Hwm').
  rewrite Hvu, Hvu' in Hsame.
  assert (Hmin : forall z, z ∈ us -> (f (given us l u) <= f (given us l z))%N).
  { intros z Hz. apply Hin in Hz as [Hz|Hz]; [by apply Hwm|rewrite Hsame; by apply Hwm']. }
  assert (Hmin' : forall y, y ∈ l -> (f (given us l u) <= f y)%N).
  { intros y [j Hj]%elem_of_list_lookup. destruct (lookup_lt_is_Some_2 us j) as [z Hz].
    { rewrite <- (H2 l Hl). by eapply lookup_lt_Some. }
    rewrite <- (given_lookup us l j z y Hnd Hz Hj). apply Hmin. by eapply elem_of_list_lookup_2. }
  assert (Hidx : forall z, z ∈ us -> f (given us l u) = f (given us l z) ->
    exists j, j < length us /\ us !! j = Some z /\ ExpectFacts.least f l j = true).
  { intros z Hz Evz. apply elem_of_list_lookup in Hz as [j Hj]. exists j.
    assert (Hjl : j < length us) by (by eapply lookup_lt_Some).
    split; [done|]. split; [done|]. destruct (lookup_lt_is_Some_2 l j) as [y Hy]; [by rewrite (H2 l Hl)|].
    apply ExpectFacts.least_spec. exists y. split; [done|]. intros y' Hy'.
    rewrite <- (given_lookup us l j z y Hnd Hj Hy), <- Evz. by apply Hmin'. }
  destruct (Hidx u) as (j & Hj & Ej & Lj); [apply Hin; by left|done|].
  destruct (Hidx u') as (j' & Hj' & Ej' & Lj'); [apply Hin; by right|done|].
  assert (Hone : ties (length us) f l = 1).
  { destruct (ties_bound (length us) hs f H2 l Hl) as [Hb1 Hb2]; [lia|].
    unfold tied in Et. rewrite <- (ties_tied (length us)) in Et by (by apply H2). lia. }
  split; [done|].
  assert (E : j = j').
  { unfold ties in Hone. assert (I1 : In j (List.filter (ExpectFacts.least f l) (seq 0 (length us)))).
    { apply filter_In. split; [apply in_seq; lia|done]. }
    assert (I2 : In j' (List.filter (ExpectFacts.least f l) (seq 0 (length us)))).
    { apply filter_In. split; [apply in_seq; lia|done]. }
    destruct (List.filter (ExpectFacts.least f l) (seq 0 (length us))) as [|a [|b r]]; [done| |done].
    destruct I1 as [<-|[]], I2 as [<-|[]]. done. }
  subst j'. rewrite Ej in Ej'. injection Ej' as <-.
  exists j. split; [done|]. rewrite Ej. split; [by apply bool_decide_eq_true|done].
Qed.
End Least.

(** ** Version 1 *)
Section V1.
Context (shuffle : N -> nat -> list N) (unit1 : N -> nat -> nat -> f32) (m : nat).
Context (Hs : forall t, shuffle t m ≡ₚ (N.of_nat <$> seq 0 m)).
Context (Hu : forall t j, is_unit (unit1 t m j)).
Context (Hm : (N.of_nat m <= 2 ^ 24)%N).
Context {U : Type} `{EqDecision U} (us xs ys : list U) (hs : list (list N)).
Context (Hus : union_of us xs ys) (Hhs : impartial (length us) hs).
Notation sig l zs := (v1_create_signature shuffle unit1 m (given us l <$> zs)).
Notation same i := (fun l => (sig l xs ≫= (.!! i)) = (sig l ys ≫= (.!! i))).
Notation f i := (offer shuffle unit1 m i).

Lemma offer_small i x : i < m -> (f i x < 100000000)%N.
Proof.
  intros Hi. destruct (shuffle_lookup shuffle m Hs Hm x i Hi) as (p & Hp & Hlt).
  pose proof (offer_rank shuffle unit1 m Hs Hu Hm x i p Hp). lia.
Qed.
Lemma sig_at l zs i : i < m -> sig l zs ≫= (.!! i) = Some (SpecSuper.least (f i <$> (given us l <$> zs))).
Proof.
  intros Hi. destruct (v1_sig shuffle unit1 m Hs Hu Hm (given us l <$> zs)) as (s & E & ->). rewrite E. cbn.
  by rewrite list_lookup_fmap, lookup_seq_lt.
Qed.
Lemma same_val i : i < m -> filter (same i) hs =
  filter (fun l => SpecSuper.least (f i <$> (given us l <$> xs)) = SpecSuper.least (f i <$> (given us l <$> ys))) hs.
Proof.
  intros Hi. apply list_filter_iff. intros l. rewrite !sig_at by done. split; [by intros [=]|by intros ->].
Qed.

Lemma super_lower i : i < m -> in_both us xs ys * length hs <= length us * length (filter (same i) hs).
Proof. intros Hi. rewrite same_val by done. apply val_lower; try done. intros x. by apply offer_small. Qed.
Lemma super_upper i : i < m -> length us * length (filter (same i) hs) <=
  in_both us xs ys * length hs + length us * length (filter (tied (f i)) hs).
Proof. intros Hi. rewrite same_val by done. apply val_upper; try done. intros x. by apply offer_small. Qed.
Lemma super_exact i : i < m -> (forall l, l ∈ hs -> NoDup (f i <$> l)) ->
  length us * length (filter (same i) hs) = in_both us xs ys * length hs.
Proof.
  intros Hi Hd. apply Nat.le_antisymm; [|by apply super_lower]. etrans; [by apply super_upper|].
  enough (E : filter (tied (f i)) hs = []) by (rewrite E; cbn; lia).
  apply elem_of_nil_inv. intros l [Ht Hl]%elem_of_list_filter. by apply (not_tied (f i) l (Hd l Hl)).
Qed.
Lemma super_mean (count : list N -> nat) :
  (forall l sx sy, l ∈ hs -> sig l xs = Some sx -> sig l ys = Some sy -> count l = agreements sx sy) ->
  m * (in_both us xs ys * length hs) <= length us * sum_list (count <$> hs).
Proof.
  intros Hcount. rewrite sum_total.
  rewrite (total_ext count (fun l => total (fun i => if bool_decide (same i l) then 1 else 0) (seq 0 m))).
  2: { intros l Hl. destruct (v1_sig shuffle unit1 m Hs Hu Hm (given us l <$> xs)) as (sx & Esx & Ex).
       destruct (v1_sig shuffle unit1 m Hs Hu Hm (given us l <$> ys)) as (sy & Esy & _).
       rewrite (Hcount l sx sy) by done. unfold agreements. rewrite filter_bool, length_filter.
       assert (El : length sx = m) by (by rewrite Ex, fmap_length, seq_length). rewrite El. apply total_ext. intros i _. by rewrite Esx, Esy. }
  rewrite (total_swap_fun (fun l i => if bool_decide (same i l) then 1 else 0)), <- total_mul.
  transitivity (total (fun _ => in_both us xs ys * length hs) (seq 0 m)).
  { rewrite total_const, seq_length. lia. }
  apply total_le. intros i Hi. apply elem_of_seq in Hi. rewrite <- length_filter, <- filter_bool. apply super_lower. lia.
Qed.
End V1.

(** A token of rank 0 makes the position 0. *)
Lemma saturated shuffle unit1 m : (forall t, shuffle t m ≡ₚ (N.of_nat <$> seq 0 m)) -> (forall t j, is_unit (unit1 t m j)) ->
  (N.of_nat m <= 2 ^ 24)%N -> forall ts, (forall j, j < m -> exists t, t ∈ ts /\ shuffle t m !! j = Some 0%N) ->
  v1_create_signature shuffle unit1 m ts = Ok (replicate m 0%N).
Proof.
  intros Hs Hu Hm ts Hz. destruct (v1_sig shuffle unit1 m Hs Hu Hm ts) as (s & -> & ->). f_equal.
  apply list_eq. intros j. rewrite list_lookup_fmap. destruct (decide (j < m)) as [Hj|Hj].
  2: { rewrite !lookup_ge_None_2; [done|rewrite replicate_length; lia|rewrite seq_length; lia]. }
  rewrite lookup_seq_lt, lookup_replicate_2 by done. cbn. f_equal.
  destruct (Hz j Hj) as (t & Ht & Hp).
  assert (Ho : offer shuffle unit1 m j t = 0%N).
  { unfold offer. rewrite Hp. cbn [default]. by apply (unit_add_u32 _ 0). }
  apply N.le_0_r. rewrite <- Ho. apply least_le. apply elem_of_list_fmap. eauto.
Qed.

(** ** Tokens that share no text but rank 0 somewhere *)
Lemma some_hit {A} (F : list A) (f : A -> bool) n :
  total (fun l => if existsb f l then 1 else 0) (tuples F n) = length F ^ n - (length F - length (List.filter f F)) ^ n.
Proof.
  pose proof (ones_le f F) as Hle.
  assert (En : length (List.filter (fun x => negb (f x)) F) = length F - length (List.filter f F)).
  { clear Hle. induction F as [|x l IH]; [done|]. cbn [List.filter length]. pose proof (ones_le f l).
    destruct (f x); cbn [negb length]; [by rewrite Nat.sub_succ|]. rewrite IH. lia. }
  assert (Hsum : total (fun l => if existsb f l then 1 else 0) (tuples F n) +
    total (fun l => if forallb (fun x => negb (f x)) l then 1 else 0) (tuples F n) = length F ^ n).
  { rewrite <- total_plus, <- tuples_count.
    transitivity (total (fun _ => 1) (tuples F n)); [|rewrite total_const; lia]. apply total_ext. intros l _.
    destruct (existsb f l) eqn:E; destruct (forallb _ l) eqn:E'; try done.
    - apply existsb_exists in E as (x & Hx & Hf). rewrite forallb_forall in E'. specialize (E' x Hx). by rewrite Hf in E'.
    - assert (Ht : forallb (fun x => negb (f x)) l = true); [|congruence]. apply forallb_forall. intros x Hx.
      destruct (f x) eqn:Ef; [|done]. assert (existsb f l = true) by (apply existsb_exists; eauto). congruence. }
  rewrite all_hits in Hsum. rewrite En in Hsum. lia.
Qed.

Lemma assignments_tuples vs n : assignments vs n = tuples vs n.
Proof. induction n as [|n IH]; [done|]. cbn. by rewrite IH. Qed.

Lemma given_app {U : Type} `{EqDecision U} (xs ys : list U) l l' : length l = length xs -> NoDup (xs ++ ys) ->
  (given (xs ++ ys) (l ++ l') <$> xs) = l /\ (length l' = length ys -> (given (xs ++ ys) (l ++ l') <$> ys) = l').
Proof.
  intros Hl Hnd. split; [|intros Hl']; apply list_eq; intros j; rewrite list_lookup_fmap.
  - destruct (xs !! j) as [u|] eqn:Eu; cbn.
    + destruct (lookup_lt_is_Some_2 l j) as [v Hv]; [rewrite Hl; by eapply lookup_lt_Some|]. rewrite Hv. f_equal.
      apply (given_lookup _ _ j); [done| |]; by apply lookup_app_l_Some.
    + symmetry. apply lookup_ge_None. apply lookup_ge_None in Eu. lia.
  - destruct (ys !! j) as [u|] eqn:Eu; cbn.
    + destruct (lookup_lt_is_Some_2 l' j) as [v Hv]; [rewrite Hl'; by eapply lookup_lt_Some|]. rewrite Hv. f_equal.
      apply (given_lookup _ _ (length xs + j)); [done| |].
      * rewrite lookup_app_r by lia. by replace (_ - _) with j by lia.
      * rewrite lookup_app_r by lia. by replace (_ - _) with j by lia.
    + symmetry. apply lookup_ge_None. apply lookup_ge_None in Eu. lia.
Qed.

Section Disjoint.
Context (shuffle : N -> nat -> list N) (unit1 : N -> nat -> nat -> f32) (m : nat).
Context (Hs : forall t, shuffle t m ≡ₚ (N.of_nat <$> seq 0 m)).
Context (Hu : forall t j, is_unit (unit1 t m j)).
Context (Hm : (N.of_nat m <= 2 ^ 24)%N).
Context {U : Type} `{EqDecision U} (xs ys : list U) (Hnd : NoDup (xs ++ ys)).
Notation sig l zs := (v1_create_signature shuffle unit1 m (given (xs ++ ys) l <$> zs)).
Notation zero i := (fun t => bool_decide (shuffle t m !! i = Some 0%N)).

Lemma rank_zero i ts : i < m -> existsb (zero i) ts = true -> v1_create_signature shuffle unit1 m ts ≫= (.!! i) = Some 0%N.
Proof.
  intros Hi He. destruct (v1_sig shuffle unit1 m Hs Hu Hm ts) as (s & E & ->). rewrite E. cbn.
  rewrite list_lookup_fmap, lookup_seq_lt by done. cbn. f_equal.
  apply existsb_exists in He as (t & Ht & Hp%bool_decide_eq_true). apply elem_of_list_In in Ht.
  assert (Ho : offer shuffle unit1 m i t = 0%N).
  { unfold offer. rewrite Hp. cbn [default]. by apply (unit_add_u32 _ 0). }
  apply N.le_0_r. rewrite <- Ho. apply least_le. apply elem_of_list_fmap. eauto.
Qed.

Lemma disjoint_agree (vs : list N) i : i < m ->
  let q := length (filter (fun t => shuffle t m !! i = Some 0%N) vs) in
  (length vs ^ length xs - (length vs - q) ^ length xs) * (length vs ^ length ys - (length vs - q) ^ length ys) <=
  length (filter (fun l => (sig l xs ≫= (.!! i)) = (sig l ys ≫= (.!! i))) (assignments vs (length (xs ++ ys)))).
Proof.
  intros Hi q. unfold q. rewrite !filter_bool, assignments_tuples, app_length, (length_filter _ (tuples vs (_ + _))), tuples_app.
  rewrite <- !some_hit, Nat.mul_comm, <- total_mul. apply total_le. intros l Hl. apply tuples_elem in Hl as [Hl _].
  rewrite Nat.mul_comm, <- total_mul. apply total_le. intros l' Hl'. apply tuples_elem in Hl' as [Hl' _].
  destruct (existsb (zero i) l) eqn:E; [|lia]. destruct (existsb (zero i) l') eqn:E'; [|lia].
  destruct (given_app xs ys l l' Hl Hnd) as [Ex Ey]. rewrite Ex, (Ey Hl').
  rewrite !rank_zero by done. by rewrite bool_decide_eq_true_2.
Qed.
End Disjoint.

(** Offers are ranks up to [m], so more tokens than that collide. *)
Lemma offers_collide shuffle unit1 m i l : (forall t, shuffle t m ≡ₚ (N.of_nat <$> seq 0 m)) -> (forall t j, is_unit (unit1 t m j)) ->
  (N.of_nat m <= 2 ^ 24)%N -> i < m -> S m < length l -> ~ NoDup (offer shuffle unit1 m i <$> l).
Proof.
  intros Hs Hu Hm Hi Hl Hnd.
  assert (Hle : length (offer shuffle unit1 m i <$> l) <= length (N.of_nat <$> seq 0 (S m))).
  { apply submseteq_length, NoDup_submseteq; [done|]. intros v Hv. apply elem_of_list_fmap in Hv as (t & -> & _).
    destruct (shuffle_lookup shuffle m Hs Hm t i Hi) as (p & Hp & Hlt).
    pose proof (offer_rank shuffle unit1 m Hs Hu Hm t i p Hp).
    apply elem_of_list_fmap. exists (N.to_nat (offer shuffle unit1 m i t)). split; [lia|]. apply elem_of_seq. lia. }
  rewrite !fmap_length, seq_length in Hle. lia.
Qed.
