(** How the answers of the indexes depend on their parameters: threshold, number asked for,
    width of the bands. *)
From stdpp Require Import base list gmap.
From Coq Require Import NArith ZArith Lia.
From Verif Require Import Base Par Float Similarity SimilarityFacts SimilarityThms F64Facts Container
  ContainerFacts MinHashIndex SpecIndex SpecHistory SpecHistoryQuery SortFacts
  MinHashIndexFacts MinHashIndexFacts2 MinHashIndexThms HistoryQueryFacts SpecLife LifeFacts SpecTuning.

(** ** The threshold *)
Section Threshold.
Context {T : Type} `{!EqDecision T}.
Context {Id : Type} `{Countable Id}.
Context (K : id_container Id) (bh : list T -> N).
Notation index := (index (carrier K) Id T).
Implicit Types (m : index) (q : list T).

Definition with_threshold (t : f64) (m : index) : index :=
  Index (bands m) (id_signatures m) t (idx_r m) (idx_b m) (num_hashes m).

Lemma step_threshold t m o :
  (step K bh (with_threshold t m) o).1 = with_threshold t (step K bh m o).1.
Proof.
  destruct o; simpl.
  - unfold insert. simpl. case_decide; [|done]. by destruct (for_each_mut _ _) as [? []].
  - unfold par_bulk_insert, par_bulk_insert_pairs. simpl.
    destruct sigs as [|s0 sigs]; [|case_decide; [|done]]; by destruct (par_for_each _ _ _ _) as [? []].
  - unfold par_bulk_insert_pairs. simpl. by destruct (par_for_each _ _ _ _) as [? []].
  - unfold remove. simpl. by destruct (id_signatures m !! id).
  - done.
  - done.
  - done.
  - by rewrite !shrink_to_state.
Qed.

Lemma run_threshold t m ops : run K bh (with_threshold t m) ops = with_threshold t (run K bh m ops).
Proof.
  unfold run. revert m. induction ops as [|o ops IH]; intros m; simpl; [done|].
  rewrite step_threshold. apply IH.
Qed.

Lemma query_threshold t m q : f64_ge t (threshold m) = true ->
  match query K bh m q, query K bh (with_threshold t m) q with
  | Some A, Some B => forall x, x ∈ B <-> x ∈ A /\ exists s, id_signatures m !! x = Some s /\ f64_ge (sim s q) t = true
  | None, None => True
  | _, _ => False
  end.
Proof.
  intros Ht. unfold query.
  change (num_hashes (with_threshold t m)) with (num_hashes m).
  case_decide; [|done].
  change (candidates K bh (with_threshold t m) q) with (candidates K bh m q).
  destruct (candidates K bh m q) as [cs|]; [|done]. simpl.
  assert (Hsome : forall x, is_Some (query_keep K m q x) <-> is_Some (query_keep K (with_threshold t m) q x)).
  { intros x. unfold query_keep. simpl. destruct (id_signatures m !! x); [|done].
    destruct (compute_minhash_similarity _ _); simpl; [|done]. split; eauto. }
  assert (Hdom : forall l, is_Some (filter_res (query_keep K m q) l) <->
    is_Some (filter_res (query_keep K (with_threshold t m) q) l)).
  { induction l as [|x l IH]; simpl; [done|]. specialize (Hsome x).
    destruct (query_keep K m q x), (query_keep K (with_threshold t m) q x); simpl.
    - destruct (filter_res (query_keep K m q) l), (filter_res (query_keep K (with_threshold t m) q) l); simpl.
      + split; eauto.
      + by destruct IH as [[? ?] _]; eauto.
      + by destruct IH as [_ [? ?]]; eauto.
      + done.
    - by destruct Hsome as [[? ?] _]; eauto.
    - by destruct Hsome as [_ [? ?]]; eauto.
    - done. }
  specialize (Hdom (elements cs)).
  destruct (filter_res (query_keep K m q) (elements cs)) as [l|] eqn:E1;
    destruct (filter_res (query_keep K (with_threshold t m) q) (elements cs)) as [l'|] eqn:E2; simpl.
  - intros x. rewrite !elem_of_list_to_set, (filter_res_Some _ _ _ E1), (filter_res_Some _ _ _ E2).
    unfold query_keep. simpl. destruct (id_signatures m !! x) as [s|]; [|naive_solver].
    destruct (decide (length s = length q)) as [Hl|Hl].
    + rewrite similarity_sim by done. simpl. split.
      * intros [? [= Hg]]. split; [split; [done|]|eauto]. f_equal. by eapply f64_ge_trans.
      * intros [[? _] (s' & [= <-] & ->)]. done.
    + rewrite similarity_panic by done. simpl. naive_solver.
  - by destruct Hdom as [[? ?] _]; eauto.
  - by destruct Hdom as [_ [? ?]]; eauto.
  - done.
Qed.
End Threshold.

Section Index.
Context {T : Type} `{!EqDecision T}.
Context {Id : Type} `{Countable Id}.
Implicit Types (ops : list (op Id T)) (q s : list T) (x : Id) (bh : list T -> N).

Lemma after_threshold k bh nb bw t t' ops :
  after k bh nb bw t' ops = with_threshold (container k Id) t' (after k bh nb bw t ops).
Proof. unfold after. by rewrite <- run_threshold. Qed.

Lemma threshold_of k bh nb bw t ops : threshold (after k bh nb bw t ops) = t.
Proof. eapply inv_th, after_inv. Qed.

Lemma threshold_query k bh nb bw t t' ops q : f64_ge t' t = true ->
  match query (container k Id) bh (after k bh nb bw t ops) q,
        query (container k Id) bh (after k bh nb bw t' ops) q with
  | Some A, Some B => forall x, x ∈ B <->
      x ∈ A /\ exists s, spec_map (nb * bw) ops !! x = Some s /\ f64_ge (sim s q) t' = true
  | None, None => True
  | _, _ => False
  end.
Proof.
  intros Ht. rewrite (after_threshold k bh nb bw t t').
  rewrite <- (sigs_after k bh nb bw t). apply query_threshold. by rewrite threshold_of.
Qed.

(** ** The number asked for *)
Lemma mapM_fmap_Some {A B} (f : A -> option B) l l' : mapM f l = Some l' -> f <$> l = Some <$> l'.
Proof.
  revert l'. induction l as [|a l IH]; intros l' E; simpl in E; [by injection E as <-|].
  destruct (f a) as [b|] eqn:Ea; [|done]. simpl in E.
  destruct (mapM f l) as [l1|]; [|done]. simpl in E. injection E as <-.
  rewrite !fmap_cons, Ea, (IH l1) by done. done.
Qed.

Lemma mapM_perm {A B} (f : A -> option B) l1 l2 l1' l2' :
  l1 ≡ₚ l2 -> mapM f l1 = Some l1' -> mapM f l2 = Some l2' -> l1' ≡ₚ l2'.
Proof.
  intros Hp E1 E2. apply mapM_fmap_Some in E1, E2.
  assert (Hs : Some <$> l1' ≡ₚ Some <$> l2') by (rewrite <- E1, <- E2; by apply fmap_Permutation).
  apply (Permutation_map (fun o => match o with Some b => [b] | None => [] end)) in Hs.
  assert (Hc : forall l : list B, concat (map (fun o => match o with Some b => [b] | None => [] end) (Some <$> l)) = l).
  { induction l as [|b l IH]; [done|]. rewrite fmap_cons. cbn [map concat app]. by rewrite IH. }
  rewrite <- (Hc l1'), <- (Hc l2'). revert Hs.
  generalize (map (fun o : option B => match o with Some b => [b] | None => [] end) (Some <$> l1')).
  generalize (map (fun o : option B => match o with Some b => [b] | None => [] end) (Some <$> l2')).
  intros L2 L1 Hs. induction Hs; simpl.
  - done.
  - by apply Permutation_app_head.
  - rewrite !app_assoc. apply Permutation_app_tail, Permutation_app_comm.
  - by etransitivity.
Qed.

(** Two sorted lists of the same numbers are the same. *)
Lemma sorted_same {A} (le : A -> A -> Prop) (l1 l2 : list A) :
  (forall a b, a ∈ l1 -> b ∈ l1 -> le a b -> le b a -> a = b) ->
  (forall i j a b, i < j -> l1 !! i = Some a -> l1 !! j = Some b -> le a b) ->
  (forall i j a b, i < j -> l2 !! i = Some a -> l2 !! j = Some b -> le a b) ->
  l1 ≡ₚ l2 -> l1 = l2.
Proof.
  revert l2. induction l1 as [|a l1 IH]; intros l2 Ha H1 H2 Hp.
  { by apply Permutation_nil in Hp as ->. }
  destruct l2 as [|b l2]; [by apply Permutation_sym, Permutation_nil in Hp|].
  assert (a = b) as <-.
  { assert (Hb : b ∈ a :: l1) by (rewrite Hp; left).
    assert (Ha2 : a ∈ b :: l2) by (rewrite <- Hp; left).
    apply elem_of_cons in Hb as [->|Hb]; [done|]. apply elem_of_cons in Ha2 as [->|Ha2]; [done|].
    apply elem_of_list_lookup in Hb as [i Hb]. apply elem_of_list_lookup in Ha2 as [j Ha2].
    apply Ha; [left|right; by eapply elem_of_list_lookup_2| |].
    - apply (H1 0 (S i)); [lia|done|done].
    - apply (H2 0 (S j)); [lia|done|done]. }
  f_equal. apply IH.
  - intros x y Hx Hy. apply Ha; by right.
  - intros i j x y Hij. apply (H1 (S i) (S j)). lia.
  - intros i j x y Hij. apply (H2 (S i) (S j)). lia.
  - by apply Permutation_cons_inv in Hp.
Qed.

Lemma dist_antisym q s s' : length s = length q -> length s' = length q ->
  0 < length q -> (N.of_nat (length q) < 2 ^ 51)%N ->
  f64_ge (dist q s) (dist q s') = true -> f64_ge (dist q s') (dist q s) = true -> dist q s = dist q s'.
Proof.
  intros Hs Hs' H0 Hn H1 H2.
  assert (agreements q s = agreements q s') as E; [|unfold dist, sim; by rewrite E].
  assert (Hlt : forall u v : list T, length u = length q -> length v = length q ->
    f64_ge (dist q u) (dist q v) = true -> agreements q u <= agreements q v).
  { intros u v Hu Hv Hge.
    destruct (distance_f64 q u q v) as (d & d' & Ed & Ed' & _ & Hiff & _); [done..|].
    unfold compute_minhash_distance in Ed, Ed'. rewrite similarity_sim in Ed, Ed' by done.
    change (Some (dist q u) = Some d) in Ed. change (Some (dist q v) = Some d') in Ed'.
    injection Ed as <-. injection Ed' as <-.
    destruct (decide (agreements q u <= agreements q v)) as [|Hgt]; [done|].
    exfalso. destruct Hiff as [_ Hl]. specialize (Hl ltac:(lia)).
    unfold f64_ge, f64_lt, SpecFloat.SFleb, SpecFloat.SFltb in Hge, Hl.
    assert (Hrev : SpecFloat.SFcompare (dist q v) (dist q u) = CompOpp <$> SpecFloat.SFcompare (dist q u) (dist q v)).
    { destruct (dist q u) as [[]|[]| |[] ? ?], (dist q v) as [[]|[]| |[] ? ?]; simpl; try done;
        rewrite (Z.compare_antisym e e0); destruct (e ?= e0)%Z; simpl; try done;
        change (Pos.compare_cont Eq m m0) with (Pos.compare m m0);
        change (Pos.compare_cont Eq m0 m) with (Pos.compare m0 m);
        rewrite (Pos.compare_antisym m m0); by destruct (m ?= m0)%positive. }
    rewrite Hrev in Hge. destruct (SpecFloat.SFcompare (dist q u) (dist q v)) as [[]|]; discriminate. }
  pose proof (Hlt s s' Hs Hs' H1). pose proof (Hlt s' s Hs' Hs H2). lia.
Qed.

Lemma top_k_take k bh nb bw th ops q order sort j l :
  query_top_k (container k Id) bh order sort (after k bh nb bw th ops) q j = Some l ->
  exists cs ds, candidates (container k Id) bh (after k bh nb bw th ops) q = Some cs /\
    mapM (query_dist_item (container k Id) (after k bh nb bw th ops) q) (order cs) = Some ds /\
    l = take j (sort ds).
Proof.
  unfold query_top_k. destruct (candidates _ _ _ _) as [cs|]; [|done]. simpl.
  destruct (mapM _ _) as [ds|] eqn:Em; [|done]. simpl. unfold sort_by_f64. destruct (_ && _)%bool; simpl; [done|].
  simpl. rewrite slice_Some by lia. intros [= <-]. exists cs, ds. split; [done|]. split; [done|].
  rewrite drop_0, Nat.sub_0_r. destruct (decide (j <= length (sort ds))).
  - by rewrite Nat.min_r by lia.
  - rewrite Nat.min_l by lia. by rewrite !take_ge by lia.
Qed.

Lemma top_k_prefix k bh nb bw th th' ops q order order' sort sort' j j' l l' :
  0 < length q -> (N.of_nat (length q) < 2 ^ 51)%N ->
  is_order order -> is_order order' ->
  is_sort (fun a c => f64_ge c a) sort -> is_sort (fun a c => f64_ge c a) sort' ->
  j <= j' ->
  query_top_k (container k Id) bh order sort (after k bh nb bw th ops) q j = Some l ->
  query_top_k (container k Id) bh order' sort' (after k bh nb bw th' ops) q j' = Some l' ->
  l.*2 = take j l'.*2.
Proof.
  intros H0 Hn Ho Ho' Hs Hs' Hj E E'.
  rewrite (after_threshold k bh nb bw th th') in E'.
  change (query_top_k (container k Id) bh order' sort' (with_threshold (container k Id) th' (after k bh nb bw th ops)) q j')
    with (query_top_k (container k Id) bh order' sort' (after k bh nb bw th ops) q j') in E'.
  apply top_k_take in E as (cs & ds & Ec & Em & ->).
  apply top_k_take in E' as (cs' & ds' & Ec' & Em' & ->).
  rewrite Ec in Ec'. injection Ec' as <-.
  assert (Hp : ds ≡ₚ ds').
  { eapply mapM_perm; [|exact Em|exact Em']. by rewrite (Ho cs), (Ho' cs). }
  assert (Hd : forall p, p ∈ ds -> exists s, length s = length q /\ p.2 = dist q s).
  { intros p Hin. apply (elem_of_list_fmap_1 Some) in Hin.
    change (map Some ds) with (Some <$> ds) in Hin.
    rewrite <- (mapM_fmap_Some _ _ _ Em) in Hin. apply elem_of_list_fmap in Hin as (x & Hx & _).
    unfold query_dist_item in Hx. destruct (id_signatures _ !! x) as [s|]; [|done]. simpl in Hx.
    unfold compute_minhash_distance in Hx.
    destruct (decide (length q = length s)) as [Hl|Hl].
    - rewrite similarity_sim in Hx by done. simpl in Hx. injection Hx as ->. by exists s.
    - rewrite similarity_panic in Hx by done. done. }
  assert (Hnan : Forall (fun p => f64_is_nan p.2 = false) ds).
  { apply Forall_forall. intros p Hin. destruct (Hd p) as (s & Hl & ->); [done|].
    eapply good64_not_nan, dist_good; [done|lia]. }
  destruct (Hs ds Hnan) as [Hp1 Hord]. destruct (Hs' ds') as [Hp2 Hord']; [by rewrite <- Hp|].
  rewrite !fmap_take.
  assert ((sort ds).*2 = (sort' ds').*2) as ->.
  { apply (sorted_same (fun a c => f64_ge c a = true)).
    - intros a b Ha Hb H1 H2. rewrite Hp1 in Ha, Hb.
      apply elem_of_list_fmap in Ha as (pa & -> & Ha). apply elem_of_list_fmap in Hb as (pb & -> & Hb).
      destruct (Hd pa Ha) as (s & Hl & Es). destruct (Hd pb Hb) as (s' & Hl' & Es').
      rewrite Es, Es' in *. by apply dist_antisym.
    - intros i i' a b Hi Ha Hb. rewrite list_lookup_fmap in Ha, Hb.
      apply fmap_Some in Ha as (pa & Ha & ->). apply fmap_Some in Hb as (pb & Hb & ->).
      by apply (Hord i i').
    - intros i i' a b Hi Ha Hb. rewrite list_lookup_fmap in Ha, Hb.
      apply fmap_Some in Ha as (pa & Ha & ->). apply fmap_Some in Hb as (pb & Hb & ->).
      by apply (Hord' i i').
    - rewrite Hp1, Hp2. by rewrite Hp. }
  rewrite take_take. by rewrite Nat.min_l by lia.
Qed.

(** ** The width of the bands *)
Lemma contains_multiple nb c bw : 0 < c -> contains_bands nb (c * bw) (nb * c) bw.
Proof.
  intros Hc. split; [lia|]. intros i Hi. exists (i * c). split; [nia|]. nia.
Qed.

Lemma contains_wider nb bw nb' bw' :
  nb * bw = nb' * bw' -> 0 < bw' -> 2 * bw' <= bw + 1 -> contains_bands nb bw nb' bw'.
Proof.
  intros Hn Hp Hw. split; [done|]. intros i Hi.
  pose proof (Nat.div_mod (i * bw + (bw' - 1)) bw' ltac:(lia)) as Hd.
  pose proof (Nat.mod_upper_bound (i * bw + (bw' - 1)) bw' ltac:(lia)) as Hm.
  set (i' := (i * bw + (bw' - 1)) / bw') in *. exists i'.
  assert (i * bw <= i' * bw') by lia.
  assert ((i' + 1) * bw' <= (i + 1) * bw) by lia.
  split; [|done]. assert ((i + 1) * bw <= nb * bw) by (apply Nat.mul_le_mono_r; lia). nia.
Qed.

Lemma nth_band_sub bw i bw' i' s : i * bw <= i' * bw' -> (i' + 1) * bw' <= (i + 1) * bw ->
  nth_band bw' i' s = take bw' (drop (i' * bw' - i * bw) (nth_band bw i s)).
Proof.
  intros H1 H2. unfold nth_band. rewrite skipn_firstn_comm, drop_drop, take_take.
  rewrite Nat.min_l by lia. do 2 f_equal. lia.
Qed.

Lemma life_long n x ops s : Some s ∈ life n x ops -> n <= length s.
Proof.
  unfold life. cut (forall l, (forall s, Some s ∈ l -> n <= length s) -> Some s ∈ fold_left (life_step n x) ops l -> n <= length s).
  { intros Hc. apply Hc. intros ? []%elem_of_nil. }
  assert (Hps : forall ps : list (Id * list T), pairs_too_short n ps = false ->
    forall s, Some s ∈ pairs_of x ps -> n <= length s).
  { intros ps Hs s' Hin. apply elem_of_list_fmap in Hin as (s1 & [= <-] & Hin).
    apply elem_of_list_fmap in Hin as (p & -> & Hin). apply elem_of_list_filter in Hin as [_ Hin].
    apply bool_decide_eq_false in Hs. destruct (decide (n <= length p.2)) as [|Hgt]; [done|].
    destruct Hs. apply Exists_exists. exists p. split; [done|lia]. }
  induction ops as [|o ops IH]; intros l Hl; simpl; [apply Hl|].
  apply IH. intros s' Hin. destruct o; simpl in Hin; auto.
  - case_decide as Hn; [|auto]. apply elem_of_app in Hin as [|Hin]; [auto|].
    apply elem_of_list_fmap in Hin as (s1 & [= <-] & Hin).
    apply elem_of_list_fmap in Hin as (p & -> & Hin). apply elem_of_list_filter in Hin as [_ Hin].
    apply elem_of_list_singleton in Hin as ->. simpl. lia.
  - destruct (bulk_rejected n ids sigs) eqn:Eb; [auto|].
    apply elem_of_app in Hin as [|Hin]; [auto|].
    unfold bulk_rejected in Eb. destruct sigs as [|s0 sigs].
    + rewrite zip_with_nil_r in Hin. by apply elem_of_nil in Hin.
    + apply orb_false_iff in Eb as [_ Eb]. eauto.
  - destruct (pairs_too_short n pairs) eqn:Eb; [auto|].
    apply elem_of_app in Hin as [|Hin]; eauto.
  - case_decide; [|auto]. apply elem_of_app in Hin as [|Hin]; [auto|].
    by apply elem_of_list_singleton in Hin.
  - by apply elem_of_nil in Hin.
Qed.

Lemma left_over_in {A} (l : list (option A)) a : a ∈ left_over l -> Some a ∈ l.
Proof.
  cut (forall n, length l <= n -> a ∈ left_over l -> Some a ∈ l); [eauto|].
  intros n. revert l. induction n as [|n IH]; intros l Hl.
  { destruct l; [|simpl in *; lia]. intros []%elem_of_nil. }
  destruct l as [|[b|] l].
  - intros []%elem_of_nil.
  - destruct l as [|[b'|] l]; intros Hin.
    + apply elem_of_list_singleton in Hin as ->. left.
    + change (a ∈ b :: left_over (Some b' :: l)) in Hin.
      apply elem_of_cons in Hin as [->|Hin]; [left|]. right. apply IH; [simpl in *; lia|done].
    + right. right. apply IH; [simpl in *; lia|done].
  - intros Hin. right. apply IH; [simpl in *; lia|done].
Qed.

Lemma width_haunts k bh bh' nb bw nb' bw' ops q x :
  k <> KHashSet -> contains_bands nb bw nb' bw' -> collision_free bw bh -> length q = nb * bw ->
  haunts k bh nb bw (life (nb * bw) x ops) q ->
  haunts k bh' nb' bw' (life (nb' * bw') x ops) q.
Proof.
  intros Hk [Hn Hc] Hf Hq (i & Hi & Hr). rewrite <- Hn.
  destruct (Hc i Hi) as (i' & Hi' & Hl & Hu). exists i'. split; [done|].
  assert (exists a, a ∈ left_over (life (nb * bw) x ops) /\ meets bh bw i q a) as (a & Ha & Hm).
  { destruct k; [done| |]; exact Hr. }
  assert (meets bh' bw' i' q a) as Hm'.
  { unfold meets in *. rewrite !(nth_band_sub bw i bw' i') by done. do 3 f_equal. apply Hf; [| |done].
    - unfold nth_band. rewrite take_length, drop_length.
      pose proof (life_long _ _ _ _ (left_over_in _ _ Ha)). nia.
    - unfold nth_band. rewrite take_length, drop_length. nia. }
  destruct k; [done| |]; by exists a.
Qed.

Lemma width_query k bh bh' nb bw nb' bw' th ops q :
  k <> KHashSet -> contains_bands nb bw nb' bw' -> collision_free bw bh ->
  whole (nb * bw) ops -> Forall no_bulk_remove ops ->
  well_sized (nb * bw) (spec_map (nb * bw) ops) -> length q = nb * bw ->
  exists S S', query (container k Id) bh (after k bh nb bw th ops) q = Some S /\
    query (container k Id) bh' (after k bh' nb' bw' th ops) q = Some S' /\ S ⊆ S'.
Proof.
  intros Hk Hc Hf Hw Hb Hz Hq.
  destruct (life_query k bh nb bw th ops q) as (S & HS & HinS); [done..|].
  destruct (life_query k bh' nb' bw' th ops q) as (S' & HS' & HinS');
    [by rewrite <- ?(proj1 Hc)..|].
  exists S, S'. split; [done|]. split; [done|]. intros x Hx.
  apply HinS in Hx as (s & Hn & Hg & Hh). apply HinS'. exists s.
  split; [by rewrite <- (proj1 Hc)|]. split; [done|]. by eapply width_haunts.
Qed.

Lemma width_panics k bh bh' nb bw nb' bw' th ops q order sort :
  k <> KHashSet -> contains_bands nb bw nb' bw' -> collision_free bw bh ->
  whole (nb * bw) ops -> Forall no_bulk_remove ops ->
  well_sized (nb * bw) (spec_map (nb * bw) ops) -> length q = nb * bw ->
  is_order order -> is_sort f64_ge sort ->
  query_owned_return_similarity (container k Id) bh order sort (after k bh nb bw th ops) q = None ->
  query_owned_return_similarity (container k Id) bh' order sort (after k bh' nb' bw' th ops) q = None.
Proof.
  intros Hk Hc Hf Hw Hb Hz Hq Ho Hs Hp.
  apply life_similarity_panics in Hp as (x & Hn & Hh); [|done..].
  apply life_similarity_panics; [by rewrite <- ?(proj1 Hc)..|done|done|].
  exists x. split; [by rewrite <- (proj1 Hc)|]. by eapply width_haunts.
Qed.

Lemma width_clean k k' bh bh' nb bw nb' bw' th ops q :
  contains_bands nb bw nb' bw' -> collision_free bw bh -> clean (nb * bw) ops -> length q = nb * bw ->
  exists S S', query (container k Id) bh (after k bh nb bw th ops) q = Some S /\
    query (container k' Id) bh' (after k' bh' nb' bw' th ops) q = Some S' /\ S ⊆ S'.
Proof.
  intros Hc Hf Hcl Hq.
  destruct (exact_answer k bh nb bw th ops q) as (S & HS & HinS); [done..|].
  destruct (exact_answer k' bh' nb' bw' th ops q) as (S' & HS' & HinS');
    [by rewrite <- ?(proj1 Hc)..|].
  exists S, S'. split; [done|]. split; [done|]. intros x Hx.
  apply HinS in Hx as (s & Hn & Hg & i & Hi & Hh). apply HinS'. exists s.
  split; [by rewrite <- (proj1 Hc)|]. split; [done|].
  destruct (proj2 Hc i Hi) as (i' & Hi' & Hl & Hu). exists i'. split; [done|].
  rewrite !(nth_band_sub bw i bw' i') by done. do 3 f_equal.
  assert (length s = nb * bw) by (eapply clean_well_sized; eauto).
  apply Hf; [| |done]; unfold nth_band; rewrite take_length, drop_length; nia.
Qed.

(** [query_one] of an index with narrower bands is at least as good. *)
Lemma width_query_one k bh bh' nb bw nb' bw' th ops q order order' x v :
  f64_valid th = true -> k <> KHashSet -> contains_bands nb bw nb' bw' -> collision_free bw bh ->
  whole (nb * bw) ops -> Forall no_bulk_remove ops ->
  well_sized (nb * bw) (spec_map (nb * bw) ops) -> length q = nb * bw ->
  is_order order -> is_order order' ->
  query_one (container k Id) bh order (after k bh nb bw th ops) q = Some (Some (x, v)) ->
  exists x' v', query_one (container k Id) bh' order' (after k bh' nb' bw' th ops) q = Some (Some (x', v')) /\
    f64_gt v v' = false.
Proof.
  intros Ht Hk Hc Hf Hw Hb Hz Hq Ho Ho' E.
  destruct (history_query_one k bh nb bw th ops q order) as (r & Er & Hr); [done..|].
  rewrite E in Er. injection Er as <-. destruct Hr as (Hm & s & Hs & -> & Hg & _).
  destruct (history_query_one k bh' nb' bw' th ops q order') as (r' & Er' & Hr');
    [done|by rewrite <- ?(proj1 Hc)..|done|].
  assert (Hm' : met k bh' nb' bw' ops q x).
  { apply life_met; [done|]. eapply width_haunts; [done..|]. by apply life_met. }
  assert (Hs' : spec_map (nb' * bw') ops !! x = Some s) by by rewrite <- (proj1 Hc).
  destruct r' as [[x' v']|].
  - exists x', v'. split; [done|]. destruct Hr' as (_ & s2 & _ & -> & _ & Hbest). by apply (Hbest x s).
  - exfalso. rewrite (Hr' x s) in Hg by done. done.
Qed.
End Index.

(** The condition cannot be weakened. *)
Lemma width_only k k' bh' nb bw nb' bw' :
  0 < nb * bw -> (N.of_nat (nb * bw) <= 2 ^ 53)%N -> nb * bw = nb' * bw' -> collision_free bw' bh' -> ~ contains_bands nb bw nb' bw' ->
  exists (s q : list N) (th : f64), length s = nb * bw /\ length q = nb * bw /\ forall bh,
    (exists S, query (container k N) bh (after k bh nb bw th [Insert 1%N s]) q = Some S /\ 1%N ∈ S) /\
    (exists S, query (container k' N) bh' (after k' bh' nb' bw' th [Insert 1%N s]) q = Some S /\ 1%N ∉ S).
Proof.
  intros Hpos Hbig Hn Hf Hc. assert (Hp : 0 < bw') by nia.
  assert (exists i, i < nb /\ forall i', i' < nb' -> ~ (i * bw <= i' * bw' /\ (i' + 1) * bw' <= (i + 1) * bw))
    as (i & Hi & Hno).
  { destruct (decide (Exists (fun i => Forall (fun i' => ~ (i * bw <= i' * bw' /\ (i' + 1) * bw' <= (i + 1) * bw))
      (seq 0 nb')) (seq 0 nb))) as [He|He].
    - apply Exists_exists in He as (i & Hi & Hall). exists i. apply elem_of_seq in Hi. split; [lia|].
      intros i' Hi'. rewrite Forall_forall in Hall. apply Hall. apply elem_of_seq. lia.
    - exfalso. apply Hc. split; [done|]. intros i Hi.
      rewrite Exists_exists in He.
      destruct (decide (Forall (fun i' => ~ (i * bw <= i' * bw' /\ (i' + 1) * bw' <= (i + 1) * bw)) (seq 0 nb')))
        as [Hall|Hall]; [exfalso; apply He; exists i; split; [apply elem_of_seq; lia|done]|].
      apply not_Forall_Exists in Hall; [|apply _]. apply Exists_exists in Hall as (i' & Hi' & Hd).
      exists i'. apply elem_of_seq in Hi'. split; [lia|]. by apply dec_stable in Hd. }
  set (n := nb * bw).
  set (s := replicate n 0%N : list N).
  set (q := (fun j => if decide (i * bw <= j < (i + 1) * bw) then 0%N else 1%N) <$> seq 0 n).
  assert (Hls : length s = n) by apply replicate_length.
  assert (Hlq : length q = n) by (unfold q; by rewrite fmap_length, seq_length).
  assert (Hq : forall j, j < n -> q !! j = Some (if decide (i * bw <= j < (i + 1) * bw) then 0%N else 1%N)).
  { intros j Hj. unfold q. rewrite list_lookup_fmap, lookup_seq_lt by done. done. }
  assert (Hs : forall j, j < n -> s !! j = Some 0%N).
  { intros j Hj. unfold s. by apply lookup_replicate_2. }
  exists s, q, (sim s q). split; [done|]. split; [done|]. intros bh.
  assert (Hcl : forall m, m = n -> clean m [Insert 1%N s]).
  { intros m ->. split; [|done]. intros _. apply lookup_empty. }
  assert (Hm : forall m, m = n -> spec_map m [Insert 1%N s] = <[1%N := s]> ∅).
  { intros m ->. unfold spec_map. simpl. by rewrite decide_True. }
  split.
  - destruct (exact_answer k bh nb bw (sim s q) [Insert 1%N s] q) as (S & HS & Hin); [by apply Hcl|done|].
    exists S. split; [done|]. apply Hin. exists s. rewrite Hm by done. split; [apply lookup_insert|].
    split.
    { assert (f64_is_nan (sim s q) = false) as Hnan.
      { eapply good64_not_nan, sim_good; rewrite Hls; done. }
      destruct (f64_ge (sim s q) (sim s q)) eqn:Eg; [done|]. rewrite <- Eg. by apply f64_ge_total. }
    exists i. split; [done|]. f_equal. apply share_band_nth. intros j Hj.
    assert (j < n) by (unfold n; nia). rewrite Hs, Hq by done. by rewrite decide_True.
  - destruct (exact_answer k' bh' nb' bw' (sim s q) [Insert 1%N s] q) as (S & HS & Hin);
      [by apply Hcl|by rewrite Hlq|].
    exists S. split; [done|]. intros Hx. apply Hin in Hx as (s1 & Hs1 & _ & i' & Hi' & Hb).
    rewrite Hm, lookup_insert in Hs1 by done. injection Hs1 as <-.
    apply (Hno i' Hi').
    assert (Hle : (i' + 1) * bw' <= nb' * bw') by (apply Nat.mul_le_mono_r; lia).
    apply Hf in Hb; [|unfold nth_band; rewrite take_length, drop_length; nia..].
    pose proof (nth_band_share _ _ _ _ Hb) as Hsh.
    assert (Hj : forall j, i' * bw' <= j < (i' + 1) * bw' -> i * bw <= j < (i + 1) * bw).
    { intros j Hj. specialize (Hsh j Hj). rewrite Hs, Hq in Hsh by (unfold n; lia).
      by destruct (decide (i * bw <= j < (i + 1) * bw)). }
    pose proof (Hj (i' * bw') ltac:(lia)). pose proof (Hj ((i' + 1) * bw' - 1) ltac:(lia)). lia.
Qed.
