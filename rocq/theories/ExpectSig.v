(** Agreement of signatures, averaged over token hashes. *)
From stdpp Require Import base list list_numbers.
From Coq Require Import NArith Lia.
From Verif Require Import ListFacts Base SpecIndex SimilarityFacts MinHasher SpecMinHash MinHasherFacts SpecExpect ExpectFacts.
Local Open Scope nat_scope.

Lemma filter_bool {A} (P : A -> Prop) `{!forall x, Decision (P x)} (l : list A) :
  filter P l = List.filter (fun x => bool_decide (P x)) l.
Proof.
  induction l as [|x l IH]; [done|]. rewrite filter_cons. cbn. rewrite IH.
  destruct (decide (P x)); [by rewrite bool_decide_true|by rewrite bool_decide_false].
Qed.

Section Given.
Context {U : Type} `{EqDecision U}.
Implicit Types (us xs ys : list U) (l : list N).

Lemma given_lookup us l j u v : NoDup us -> us !! j = Some u -> l !! j = Some v -> given us l u = v.
Proof.
  intros Hnd. revert l j. induction us as [|x us IH]; intros [|w l] [|j] Hu Hv; try done; cbn in *.
  - injection Hu as <-. injection Hv as <-. by rewrite decide_True.
  - apply NoDup_cons in Hnd as [Hx Hnd]. rewrite decide_False; [by eapply IH|].
    intros ->. apply Hx. by eapply elem_of_list_lookup_2.
Qed.

Lemma filter_index (P : U -> Prop) `{!forall x, Decision (P x)} us :
  length (filter P us) = length (List.filter (fun j => match us !! j with Some u => bool_decide (P u) | None => false end) (seq 0 (length us))).
Proof.
  rewrite filter_bool, !length_filter. induction us as [|u us IH]; [done|]. cbn [length total seq]. rewrite IH.
  cbn. f_equal. rewrite <- fmap_S_seq, total_fmap. done.
Qed.
End Given.

Lemma impartial_at m hs : impartial m hs -> NoDup hs /\ (forall l, l ∈ hs -> length l = m) /\
  (forall l l', l ∈ hs -> l' ≡ₚ l -> l' ∈ hs).
Proof. intros [H1 H2]. split; [done|]. split; [intros l Hl; by apply H2|]. intros l l' Hl. by apply H2. Qed.

Lemma ties_tied m f l : length l = m -> ties m f l = length (filter (fun v => Forall (fun w => (f v <= f w)%N) l) l).
Proof.
  intros Hm. unfold ties. rewrite (filter_index (fun v => Forall (fun w => (f v <= f w)%N) l) l), Hm.
  rewrite !length_filter. apply total_ext. intros j _.
  assert (E : least f l j = match l !! j with Some u => bool_decide (Forall (fun w => (f u <= f w)%N) l) | None => false end); [|by rewrite E].
  unfold least. destruct (l !! j) as [x|]; [|done].
  apply Bool.eq_iff_eq_true. rewrite bool_decide_eq_true, forallb_forall, Forall_forall.
  setoid_rewrite <- elem_of_list_In. by setoid_rewrite N.leb_le.
Qed.

Section Sig.
Context {U : Type} `{EqDecision U}.
Context (k : hasher_kind) (draws : N -> nat -> nat -> N) (n : nat) (seed : N).
Context (us xs ys : list U) (hs : list (list N)).
Context (Hus : union_of us xs ys) (Hhs : impartial (length us) hs).
Notation m := (new_with_hasher_and_seed draws n seed).
Notation sig l zs := (create_signature k (given us l) m zs).
Notation f i := (affine k (draws seed n i) (draws seed n (n + i))).
Notation same i := (fun l => (sig l xs ≫= (.!! i)) = (sig l ys ≫= (.!! i))).

Lemma coef i : i < n -> coef_a m !! i = Some (draws seed n i) /\ coef_b m !! i = Some (draws seed n (n + i)).
Proof. intros Hi. cbn. by rewrite !list_lookup_fmap, !lookup_seq_lt. Qed.

Lemma shared_index : in_both us xs ys =
  length (List.filter (fun j => match us !! j with Some u => bool_decide (u ∈ xs /\ u ∈ ys) | None => false end) (seq 0 (length us))).
Proof. apply filter_index. Qed.

Lemma same_lower i : i < n -> in_both us xs ys * length hs <= length us * length (filter (same i) hs).
Proof.
  intros Hi. destruct (impartial_at _ _ Hhs) as (H1 & H2 & H3). destruct Hus as [Hnd Hin].
  rewrite shared_index, filter_bool. apply (count_lower (length us) hs (f i)); try done.
  intros l j Hl Hj HJ Hleast. apply bool_decide_eq_true. destruct (us !! j) as [u|] eqn:Eu; [|done].
  apply bool_decide_eq_true in HJ as [Hx Hy]. apply least_spec in Hleast as (v & Hv & Hmin).
  assert (Eg := given_lookup us l j u v Hnd Eu Hv).
  destruct (signature_shape (given us l) draws n seed k xs) as (sx & Esx & Hlx & _).
  destruct (signature_shape (given us l) draws n seed k ys) as (sy & Esy & Hly & _).
  rewrite Esx, Esy. cbn. destruct (coef i Hi) as [Ha Hb].
  apply (agree_if_shared (given us l) draws n seed k xs ys sx sy i _ _ u Esx Esy Ha Hb Hx Hy).
  intros w Hw. rewrite Eg. apply elem_of_app in Hw. apply Hin, elem_of_list_lookup in Hw as [j' Hj'].
  destruct (lookup_lt_is_Some_2 l j') as [v' Hv'].
  { rewrite (H2 l Hl). by eapply lookup_lt_Some. }
  rewrite (given_lookup us l j' w v' Hnd Hj' Hv'). apply Hmin. by eapply elem_of_list_lookup_2.
Qed.

Lemma same_upper i : full_width k -> xs <> [] -> ys <> [] -> i < n ->
  length us * length (filter (same i) hs) <=
  in_both us xs ys * length hs + length us * length (filter (tied (f i)) hs).
Proof.
  intros Hk Hx0 Hy0 Hi. destruct (impartial_at _ _ Hhs) as (H1 & H2 & H3). destruct Hus as [Hnd Hin].
  rewrite shared_index, !(filter_bool _ hs). apply (count_upper (length us) hs (f i)); try done.
  intros l Hl Hsame. apply bool_decide_eq_true in Hsame.
  destruct (bool_decide (tied (f i) l)) eqn:Et; [by left|right]. apply bool_decide_eq_false in Et.
  destruct (signature_shape (given us l) draws n seed k xs) as (sx & Esx & Hlx & _).
  destruct (signature_shape (given us l) draws n seed k ys) as (sy & Esy & Hly & _).
  rewrite Esx, Esy in Hsame. cbn in Hsame. destruct (coef i Hi) as [Ha Hb].
  destruct (lookup_lt_is_Some_2 sx i) as [v Ev]; [lia|]. rewrite Ev in Hsame. symmetry in Hsame.
  destruct (lookup_least (given us l) k m xs sx i (draws seed n i) (draws seed n (n + i)) v) as (w & [Hw Hwm] & Hvw); try done.
  { apply new_a. } { apply new_b. }
  destruct (lookup_least (given us l) k m ys sy i (draws seed n i) (draws seed n (n + i)) v) as (w' & [Hw' Hwm'] & Hvw'); try done.
  { apply new_a. } { apply new_b. }
  apply elem_of_list_fmap in Hw as (u & -> & Hu). apply elem_of_list_fmap in Hw' as (u' & -> & Hu').
  rewrite affine_small in Hvw, Hvw' by done. rewrite <- Hvw in Hwm. rewrite <- Hvw' in Hwm'.
  assert (Hmin : forall z, z ∈ us -> (v <= f i (given us l z))%N).
  { intros z Hz. apply Hin in Hz as [Hz|Hz]; [apply Hwm|apply Hwm']; apply elem_of_list_fmap; eauto. }
  assert (Hmin' : forall y, y ∈ l -> (v <= f i y)%N).
  { intros y [j Hj]%elem_of_list_lookup. destruct (lookup_lt_is_Some_2 us j) as [z Hz].
    { rewrite <- (H2 l Hl). by eapply lookup_lt_Some. }
    rewrite <- (given_lookup us l j z y Hnd Hz Hj). apply Hmin. by eapply elem_of_list_lookup_2. }
  assert (Hidx : forall z, z ∈ us -> v = f i (given us l z) -> exists j, j < length us /\ us !! j = Some z /\ least (f i) l j = true).
  { intros z Hz Evz. apply elem_of_list_lookup in Hz as [j Hj]. exists j.
    assert (Hjl : j < length us) by (by eapply lookup_lt_Some).
    split; [done|]. split; [done|]. destruct (lookup_lt_is_Some_2 l j) as [y Hy]; [by rewrite (H2 l Hl)|].
    apply least_spec. exists y. split; [done|]. intros y' Hy'.
    rewrite <- (given_lookup us l j z y Hnd Hj Hy), <- Evz. by apply Hmin'. }
  destruct (Hidx u) as (j & Hj & Ej & Lj); [apply Hin; by left|done|].
  destruct (Hidx u') as (j' & Hj' & Ej' & Lj'); [apply Hin; by right|done|].
  assert (Hone : ties (length us) (f i) l = 1).
  { destruct (ties_bound (length us) hs (f i) H2 l Hl) as [Hb1 Hb2]; [lia|].
    unfold tied in Et. rewrite <- (ties_tied (length us)) in Et by (by apply H2). lia. }
  split; [done|].
  assert (E : j = j').
  { unfold ties in Hone. assert (I1 : In j (List.filter (least (f i) l) (seq 0 (length us)))).
    { apply filter_In. split; [apply in_seq; lia|done]. }
    assert (I2 : In j' (List.filter (least (f i) l) (seq 0 (length us)))).
    { apply filter_In. split; [apply in_seq; lia|done]. }
    destruct (List.filter (least (f i) l) (seq 0 (length us))) as [|a [|b r]]; [done| |done].
    destruct I1 as [<-|[]], I2 as [<-|[]]. done. }
  subst j'. rewrite Ej in Ej'. injection Ej' as <-.
  exists j. split; [done|]. rewrite Ej. split; [by apply bool_decide_eq_true|done].
Qed.

Lemma not_tied f' l : NoDup (f' <$> l) -> ~ tied f' l.
Proof.
  intros Hnd Ht. unfold tied in Ht.
  assert (Hone : forall v w, v ∈ l -> w ∈ l -> Forall (fun w => (f' v <= f' w)%N) l -> Forall (fun u => (f' w <= f' u)%N) l -> f' v = f' w).
  { intros v w Hv Hw H1 H2. rewrite Forall_forall in H1, H2. specialize (H1 w Hw). specialize (H2 v Hv). lia. }
  assert (Hs : filter (fun v => Forall (fun w => (f' v <= f' w)%N) l) l `sublist_of` l) by apply sublist_filter.
  assert (Hs' : f' <$> filter (fun v => Forall (fun w => (f' v <= f' w)%N) l) l `sublist_of` f' <$> l).
  { revert Hs. generalize (filter (fun v => Forall (fun w => (f' v <= f' w)%N) l) l). clear.
    intros k. induction 1; cbn; by constructor. }
  apply (sublist_NoDup _ _ Hnd) in Hs'.
  assert (Hall : forall v, v ∈ filter (fun v => Forall (fun w => (f' v <= f' w)%N) l) l -> v ∈ l /\ Forall (fun w => (f' v <= f' w)%N) l).
  { intros v Hv. by apply elem_of_list_filter in Hv as [? ?]. }
  destruct (filter (fun v => Forall (fun w => (f' v <= f' w)%N) l) l) as [|v [|w r]]; [cbn in Ht; lia|cbn in Ht; lia|].
  cbn in Hs'. apply NoDup_cons in Hs' as [Hs' _]. apply Hs'.
  destruct (Hall v) as [V1 V2]; [left|]. destruct (Hall w) as [W1 W2]; [right; left|].
  rewrite (Hone v w) by done. left.
Qed.

Lemma same_exact i : full_width k -> xs <> [] -> ys <> [] -> i < n ->
  (forall l, l ∈ hs -> NoDup (f i <$> l)) ->
  length us * length (filter (same i) hs) = in_both us xs ys * length hs.
Proof.
  intros Hk Hx0 Hy0 Hi Hd. apply Nat.le_antisymm; [|by apply same_lower].
  etrans; [by apply same_upper|]. enough (E : filter (tied (f i)) hs = []) by (rewrite E; cbn; lia).
  apply elem_of_nil_inv. intros l [Ht Hl]%elem_of_list_filter. by apply (not_tied (f i) l (Hd l Hl)).
Qed.

Lemma agreements_total l sx sy : sig l xs = Some sx -> sig l ys = Some sy ->
  agreements sx sy = total (fun i => if bool_decide (same i l) then 1 else 0) (seq 0 n).
Proof.
  intros Ex Ey. unfold agreements.
  destruct (signature_shape (given us l) draws n seed k xs) as (sx' & Ex' & Hlx & _).
  rewrite Ex in Ex'. injection Ex' as <-. rewrite Hlx, filter_bool, length_filter.
  apply total_ext. intros i _. rewrite Ex, Ey. done.
Qed.

Lemma sum_total {A} (F : A -> nat) (l : list A) : sum_list (F <$> l) = total F l.
Proof. induction l as [|x l IH]; cbn; [done|]. by rewrite <- IH. Qed.

Lemma same_mean (count : list N -> nat) :
  (forall l sx sy, l ∈ hs -> sig l xs = Some sx -> sig l ys = Some sy -> count l = agreements sx sy) ->
  n * (in_both us xs ys * length hs) <= length us * sum_list (count <$> hs).
Proof.
  intros Hcount. rewrite sum_total.
  rewrite (total_ext count (fun l => total (fun i => if bool_decide (same i l) then 1 else 0) (seq 0 n))).
  2: { intros l Hl. destruct (signature_shape (given us l) draws n seed k xs) as (sx & Esx & _).
       destruct (signature_shape (given us l) draws n seed k ys) as (sy & Esy & _).
       rewrite (Hcount l sx sy) by done. by apply agreements_total. }
  rewrite (total_swap_fun (fun l i => if bool_decide (same i l) then 1 else 0)), <- total_mul.
  transitivity (total (fun _ => in_both us xs ys * length hs) (seq 0 n)).
  { rewrite total_const, seq_length. lia. }
  apply total_le. intros i Hi. apply elem_of_seq in Hi. rewrite <- length_filter, <- filter_bool. apply same_lower. lia.
Qed.
End Sig.
