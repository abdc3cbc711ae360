(** Sorted queries, bulk/sequential equivalence, band sizes, shrinking. *)
From stdpp Require Import base list gmap.
From Coq Require Import NArith.
From Verif Require Import Base Par ParFacts Float F64Facts Similarity SimilarityFacts
  Container ContainerFacts MinHashIndex SpecIndex MinHashIndexFacts MinHashIndexFacts2.

Section Facts.
Context {T : Type} `{!EqDecision T}.
Context {Id : Type} `{Countable Id}.
Context (K : id_container Id) (L : container_laws K).
Context (bh : list T -> N) (nb bw : nat) (th : f64).

Notation band := (band (carrier K)).
Notation index := (index (carrier K) Id T).
Notation smap := (gmap Id (list T)).
Implicit Types (b : band) (m : index) (sm : smap) (s q : list T).

Notation Inv := (Inv K bh nb bw th).
Notation exact := (exact K bh bw).
Notation bkey i s := (bh (nth_band bw i s)).

Lemma sort_by_f64_ok le sort (l : list (Id * f64)) :
  is_sort le sort -> Forall (fun p => f64_is_nan p.2 = false) l ->
  sort_by_f64 sort l = Some (sort l) /\ sort l ≡ₚ l /\
  forall i j a c, i < j -> sort l !! i = Some a -> sort l !! j = Some c -> le a.2 c.2 = true.
Proof.
  intros Hs Hn. unfold sort_by_f64.
  assert (existsb (fun p : Id * f64 => f64_is_nan p.2) l = false) as ->.
  { apply not_true_iff_false. intros (p & Hp & Hpn)%existsb_exists.
    rewrite Forall_forall in Hn. apply elem_of_list_In in Hp. apply Hn in Hp. congruence. }
  rewrite andb_false_r. split; [done|]. by apply Hs.
Qed.

(** ** query_owned_return_similarity *)
Definition sim_item sm q (x : Id) : option (Id * f64) :=
  match sm !! x with
  | Some s => if f64_ge (sim s q) th then Some (x, sim s q) else None
  | None => None
  end.

Lemma omap_fst_NoDup {A B} (g : A -> option (A * B)) (l : list A) :
  (forall x p, g x = Some p -> p.1 = x) -> NoDup l -> NoDup (omap g l).*1.
Proof.
  intros Hg. induction l as [|x l IH]; intros Hnd; [constructor|].
  apply NoDup_cons in Hnd as [Hx Hnd]. cbn. destruct (g x) as [p|] eqn:Ep; [|auto].
  rewrite fmap_cons. apply NoDup_cons. split; [|by apply IH].
  rewrite (Hg _ _ Ep). intros (p' & Heq & Hp')%elem_of_list_fmap.
  apply elem_of_list_omap in Hp' as (y & Hy & Hgy). apply Hg in Hgy. congruence.
Qed.

Lemma return_similarity_spec m sm q order sort :
  Inv m sm -> (forall i b, bands m !! i = Some b -> exact i sm b) ->
  well_sized (nb * bw) sm -> length q = nb * bw -> is_order order -> is_sort f64_ge sort ->
  exists l, query_owned_return_similarity K bh order sort m q = Some l /\
    NoDup l.*1 /\
    (forall x v, (x, v) ∈ l <->
       expected_answer nb bw bh th sm q x /\ exists s, sm !! x = Some s /\ v = sim s q) /\
    forall i j a c, i < j -> l !! i = Some a -> l !! j = Some c -> f64_ge a.2 c.2 = true.
Proof.
  intros HI Hex Hw Hq Hord Hsort. unfold query_owned_return_similarity.
  destruct (candidates_exact K bh nb bw th m sm q HI Hex) as (cs & -> & Hcs); [lia|]. simpl.
  assert (Hitem : forall x, x ∈ order cs -> query_sim_item K m q x = Some (sim_item sm q x)).
  { intros x Hx. rewrite (Hord cs), elem_of_elements, Hcs in Hx.
    destruct Hx as (s & Hs & _). unfold query_sim_item, sim_item.
    rewrite (inv_sigs _ _ _ _ _ _ _ HI), (inv_th _ _ _ _ _ _ _ HI), Hs. simpl.
    rewrite similarity_sim by (rewrite (Hw _ _ Hs); done). done. }
  rewrite (mapM_total _ (sim_item sm q)) by done. simpl. rewrite omap_id_fmap.
  set (l0 := omap (sim_item sm q) (order cs)).
  assert (Hmem : forall x v, (x, v) ∈ l0 <->
     x ∈ cs /\ exists s, sm !! x = Some s /\ v = sim s q /\ f64_ge v th = true).
  { intros x v. unfold l0. rewrite elem_of_list_omap. split.
    - intros (y & Hy & Hv). rewrite (Hord cs), elem_of_elements in Hy.
      unfold sim_item in Hv. destruct (sm !! y) as [s|] eqn:Es; [|done].
      destruct (f64_ge (sim s q) th) eqn:Eg; [|done]. injection Hv as <- <-. eauto 6.
    - intros (Hx & s & Hs & -> & Hg). exists x.
      rewrite (Hord cs), elem_of_elements. split; [done|].
      unfold sim_item. by rewrite Hs, Hg. }
  destruct (sort_by_f64_ok f64_ge sort l0 Hsort) as (-> & Hperm & Hsorted).
  { apply Forall_forall. intros [x v] (_ & s & _ & -> & Hg)%Hmem. simpl.
    by apply ge_not_nan in Hg as []. }
  exists (sort l0). split; [done|]. split; [|split; [|done]].
  - rewrite Hperm. apply omap_fst_NoDup.
    + intros x p. unfold sim_item. destruct (sm !! x); [|done].
      destruct (f64_ge _ _); [|done]. by intros [= <-].
    + rewrite (Hord cs). apply NoDup_elements.
  - intros x v. rewrite Hperm, Hmem, Hcs. unfold expected_answer, candidate. split.
    + intros [(s & Hs & Hi) (s' & Hs' & -> & Hg)]. rewrite Hs in Hs'. injection Hs' as <-.
      eauto 10.
    + intros [(s & Hs & Hg & Hi) (s' & Hs' & ->)]. rewrite Hs in Hs'. injection Hs' as <-.
      eauto 10.
Qed.

(** ** query_top_k *)
Definition dist_item sm q (x : Id) : Id * f64 :=
  (x, match sm !! x with Some s => dist q s | None => f64_one end).

Lemma top_k_spec m sm q k order sort :
  Inv m sm -> (forall i b, bands m !! i = Some b -> exact i sm b) ->
  well_sized (nb * bw) sm -> length q = nb * bw ->
  0 < length q -> (N.of_nat (length q) < 2 ^ 51)%N ->
  is_order order -> is_sort (fun a c => f64_ge c a) sort ->
  exists (cs : gset Id) l, query_top_k K bh order sort m q k = Some l /\
    (forall x, x ∈ cs <-> candidate nb bw bh sm q x) /\
    length l = Nat.min k (size cs) /\
    NoDup l.*1 /\
    (forall x d, (x, d) ∈ l -> x ∈ cs /\ exists s, sm !! x = Some s /\ d = dist q s) /\
    (forall i j a c, i < j -> l !! i = Some a -> l !! j = Some c -> f64_ge c.2 a.2 = true) /\
    (forall x d s x' s', (x, d) ∈ l -> sm !! x = Some s ->
       x' ∈ cs -> x' ∉ l.*1 -> sm !! x' = Some s' -> agreements q s' <= agreements q s).
Proof.
  intros HI Hex Hw Hq Hpos Hb Hord Hsort. unfold query_top_k.
  destruct (candidates_exact K bh nb bw th m sm q HI Hex) as (cs & -> & Hcs); [lia|]. simpl.
  assert (Hlive : forall x, x ∈ order cs -> exists s, sm !! x = Some s).
  { intros x Hx. rewrite (Hord cs), elem_of_elements, Hcs in Hx.
    destruct Hx as (s & Hs & _). eauto. }
  assert (Hitem : forall x, x ∈ order cs -> query_dist_item K m q x = Some (dist_item sm q x)).
  { intros x Hx. destruct (Hlive x Hx) as [s Hs]. unfold query_dist_item, dist_item.
    rewrite (inv_sigs _ _ _ _ _ _ _ HI), Hs. simpl. unfold compute_minhash_distance.
    rewrite similarity_sim by (rewrite (Hw _ _ Hs); done). done. }
  rewrite (mapM_total _ (dist_item sm q)) by done. simpl.
  set (l0 := dist_item sm q <$> order cs).
  assert (Hmem : forall x d, (x, d) ∈ l0 <->
     x ∈ cs /\ exists s, sm !! x = Some s /\ d = dist q s).
  { intros x d. unfold l0. rewrite elem_of_list_fmap. split.
    - intros (y & Heq & Hy). destruct (Hlive y Hy) as [s Hs].
      rewrite (Hord cs), elem_of_elements in Hy. unfold dist_item in Heq. rewrite Hs in Heq.
      injection Heq as -> ->. eauto.
    - intros (Hx & s & Hs & ->). exists x. unfold dist_item. rewrite Hs. split; [done|].
      by rewrite (Hord cs), elem_of_elements. }
  assert (Hd : forall s, length s = nb * bw -> f64_is_nan (dist q s) = false).
  { intros s Hs. eapply good64_not_nan, dist_good; lia. }
  destruct (sort_by_f64_ok (fun a c => f64_ge c a) sort l0 Hsort) as (-> & Hperm & Hsorted).
  { apply Forall_forall. intros [x d] (_ & s & Hs & ->)%Hmem. simpl. apply Hd. by eapply Hw. }
  simpl. rewrite slice_Some by lia. rewrite Nat.sub_0_r, drop_0.
  set (l := sort l0) in *.
  assert (Hnd : NoDup l.*1).
  { rewrite Hperm. unfold l0. rewrite <- list_fmap_compose.
    replace (fst ∘ dist_item sm q <$> order cs) with (order cs).
    - rewrite (Hord cs). apply NoDup_elements.
    - symmetry. etransitivity; [|apply list_fmap_id]. by apply list_fmap_ext. }
  assert (Hlen : length l = size cs).
  { rewrite Hperm. unfold l0. rewrite fmap_length, (Hord cs). done. }
  exists cs, (take (Nat.min (length l) k) l). split; [done|]. split; [done|].
  split; [rewrite take_length; lia|].
  assert (Hsub : forall p, p ∈ take (Nat.min (length l) k) l -> p ∈ l).
  { intros p Hp. eapply elem_of_submseteq; [exact Hp|]. apply submseteq_take. }
  split.
  { rewrite fmap_take. clear -Hnd. rewrite <- (take_drop (Nat.min (length l) k) l.*1) in Hnd.
    by apply NoDup_app in Hnd as [? _]. }
  split.
  { intros x d Hp%Hsub. rewrite Hperm in Hp. by apply Hmem. }
  split.
  { intros i j a b' Hij Ha Hb'.
    apply lookup_take_Some in Ha as [Ha _]. apply lookup_take_Some in Hb' as [Hb' _]. eauto. }
  intros x d s x' s' Hp Hs Hx' Hni Hs'.
  apply elem_of_list_lookup in Hp as [i Hi]. apply lookup_take_Some in Hi as [Hi Hik].
  assert (Hp' : (x', dist q s') ∈ l) by (rewrite Hperm; apply Hmem; eauto).
  apply elem_of_list_lookup in Hp' as [j Hj].
  assert (Hij : i < j).
  { destruct (decide (i < j)) as [|Hge]; [done|]. exfalso. apply Hni.
    apply elem_of_list_fmap. exists (x', dist q s'). split; [done|].
    apply elem_of_list_lookup. exists j. apply lookup_take_Some. split; [done|]. lia. }
  specialize (Hsorted _ _ _ _ Hij Hi Hj). simpl in Hsorted.
  assert ((x, d) ∈ l0) as Hin0.
  { rewrite <- Hperm. eapply elem_of_list_lookup_2; eauto. }
  apply Hmem in Hin0 as (_ & s1 & Hs1 & ->). rewrite Hs in Hs1. injection Hs1 as <-.
  destruct (decide (agreements q s' <= agreements q s)) as [|Hgt]; [done|]. exfalso.
  assert (Hlt : f64_lt (dist q s') (dist q s) = true).
  { apply dist_lt; try done; try lia; rewrite Hq; by eapply Hw. }
  apply ge_not_lt in Hsorted; [congruence|apply one_sub_valid..].
Qed.

(** Without hashes every distance is NaN, and comparing two of them panics. *)
Lemma top_k_no_hashes m sm k order sort :
  Inv m sm -> (forall i b, bands m !! i = Some b -> exact i sm b) ->
  well_sized (nb * bw) sm -> nb * bw = 0 ->
  is_order order -> (forall l, sort l ≡ₚ l) ->
  exists cs : gset Id, (forall x, x ∈ cs <-> candidate nb bw bh sm [] x) /\
    query_top_k K bh order sort m [] k =
      if decide (2 <= size cs) then Panic else Ok (take k ((fun x => (x, S754_nan)) <$> elements cs)).
Proof.
  intros HI Hex Hw H0 Hord Hsort. unfold query_top_k.
  destruct (candidates_exact K bh nb bw th m sm [] HI Hex) as (cs & -> & Hcs); [cbn; lia|]. simpl.
  exists cs. split; [done|].
  assert (Hitem : forall x, x ∈ order cs -> query_dist_item K m [] x = Some (x, S754_nan)).
  { intros x Hx. rewrite (Hord cs), elem_of_elements, Hcs in Hx. destruct Hx as (s & Hs & _).
    unfold query_dist_item. rewrite (inv_sigs _ _ _ _ _ _ _ HI), Hs. simpl. pose proof (Hw _ _ Hs) as Hl.
    rewrite H0 in Hl. by destruct s. }
  rewrite (mapM_total _ (fun x => (x, S754_nan))) by done. simpl.
  unfold sort_by_f64. rewrite fmap_length, (Permutation_length (Hord cs)).
  change (length (elements cs)) with (size cs).
  destruct (decide (2 <= size cs)) as [H2|H2].
  - rewrite (proj2 (Nat.leb_le _ _)) by done. simpl.
    destruct (order cs) as [|x l] eqn:E; [|done]. pose proof (Hord cs) as Hp. rewrite E in Hp.
    apply Permutation_nil in Hp. change (2 <= length (elements cs)) in H2. rewrite Hp in H2. cbn in H2. lia.
  - rewrite (proj2 (Nat.leb_gt _ _)) by lia. simpl. rewrite slice_Some by lia. rewrite Nat.sub_0_r, drop_0.
    assert (E : order cs = elements cs).
    { pose proof (Hord cs) as Hp. change (size cs) with (length (elements cs)) in H2.
      destruct (elements cs) as [|x [|y l]]; [by apply Permutation_nil|by apply Permutation_singleton_r|cbn in H2; lia]. }
    rewrite E. set (l0 := (fun x => (x, S754_nan)) <$> elements cs).
    assert (E2 : sort l0 = l0).
    { pose proof (Hsort l0) as Hp. change (size cs) with (length (elements cs)) in H2. unfold l0 in *.
      destruct (elements cs) as [|x [|y l]]; [by apply Permutation_nil|by apply Permutation_singleton_r|cbn in H2; lia]. }
    rewrite E2. by rewrite Nat.min_comm, <- take_take, firstn_all.
Qed.

(** ** Bulk operations equal sequences of single ones *)
Lemma for_each_mut_map (f : band -> option band) (g : band -> band) bs :
  (forall b, b ∈ bs -> f b = Some (g b)) -> for_each_mut f bs = (g <$> bs, false).
Proof.
  induction bs as [|b bs IH]; intros Hf; [done|]. simpl. rewrite Hf by (by left).
  rewrite IH by (intros; apply Hf; by right). done.
Qed.

Lemma insert_seq m sm (ps : list (Id * list T)) :
  Inv m sm -> Forall (fun p => length p.2 = nb * bw) ps ->
  run K bh m ((fun p => Insert p.1 p.2) <$> ps) =
  set_sigs K (insert_all ps (id_signatures m))
    (set_bands K ((fun b => (seq_loop (bulk_body K bh) ps b).1) <$> bands m) m).
Proof.
  revert m sm. induction ps as [|p ps IH]; intros m sm HI Hps.
  { simpl. rewrite list_fmap_id. by destruct m. }
  apply Forall_cons in Hps as [Hp Hps]. rewrite fmap_cons.
  unfold run at 1. cbn [fold_left]. fold (run K bh (step K bh m (Insert p.1 p.2)).1
    ((fun p => Insert p.1 p.2) <$> ps)).
  destruct (step_inv K L bh nb bw th m sm (Insert p.1 p.2) HI) as [HI' _].
  rewrite (IH _ _ HI' Hps). cbn [step]. unfold insert.
  rewrite (inv_n _ _ _ _ _ _ _ HI), decide_True by done.
  assert (Hfe : for_each_mut (band_insert K bh p.1 p.2) (bands m) =
    ((fun b => default b (band_insert K bh p.1 p.2 b)) <$> bands m, false)).
  { apply for_each_mut_map. intros b Hbin. apply elem_of_list_lookup in Hbin as [i Hi].
    destruct (inv_band _ _ _ _ _ _ _ HI _ _ Hi) as [Hok _].
    destruct (band_insert_ok K L bh bw i b p.1 p.2 Hok) as (b' & -> & _); [|done].
    pose proof (band_le K nb bw _ _ _ (inv_len _ _ _ _ _ _ _ HI) Hi). lia. }
  rewrite Hfe. simpl. unfold set_sigs, set_bands. simpl. f_equal.
  rewrite <- list_fmap_compose. apply list_fmap_ext. intros i b Hi.
  destruct (inv_band _ _ _ _ _ _ _ HI _ _ Hi) as [Hok _]. unfold compose, bulk_body at 2.
  destruct (band_insert_ok K L bh bw i b p.1 p.2 Hok) as (b' & -> & _); [|done].
  pose proof (band_le K nb bw _ _ _ (inv_len _ _ _ _ _ _ _ HI) Hi). lia.
Qed.

Lemma bulk_pairs_seq m sm sched (ps : list (Id * list T)) :
  Inv m sm -> Forall (fun p => length p.2 = nb * bw) ps ->
  (par_bulk_insert_pairs K bh sched ps m).1 = run K bh m ((fun p => Insert p.1 p.2) <$> ps).
Proof.
  intros HI Hps. rewrite (insert_seq m sm) by done. unfold par_bulk_insert_pairs.
  assert (Hp : (par_for_each (bulk_body K bh) sched ps (bands m)).2 = false).
  { rewrite (bulk_panic K L bh nb bw th m sm) by done. apply bool_decide_eq_false.
    intros (p & Hp & Hlt)%Exists_exists. rewrite Forall_forall in Hps. apply Hps in Hp. lia. }
  rewrite Hp. simpl. by rewrite par_for_each_ok.
Qed.

Lemma bulk_seq m sm sched ids (sigs : list (list T)) :
  Inv m sm -> Forall (fun s => length s = nb * bw) sigs ->
  (par_bulk_insert K bh sched ids sigs m).1 =
  run K bh m ((fun p => Insert p.1 p.2) <$> zip ids sigs).
Proof.
  intros HI Hs. unfold par_bulk_insert.
  assert (Hz : Forall (fun p : Id * list T => length p.2 = nb * bw) (zip ids sigs)).
  { apply Forall_forall. intros [x s] Hp%elem_of_zip_r. rewrite Forall_forall in Hs. auto. }
  destruct sigs as [|s0 sigs]; [by eapply bulk_pairs_seq|].
  rewrite (inv_n _ _ _ _ _ _ _ HI), decide_True.
  - by eapply bulk_pairs_seq.
  - apply Forall_cons in Hs as [? _]. done.
Qed.

Lemma remove_seq m sm (ids : list Id) :
  Inv m sm -> NoDup ids -> Forall (fun x => is_Some (sm !! x)) ids ->
  run K bh m (Remove <$> ids) =
  set_bands K ((fun b => (seq_loop (bulk_remove_body K bh)
                  (zip (remove_all ids sm).2 ids) b).1) <$> bands m)
    (set_sigs K (remove_all ids sm).1 m).
Proof.
  revert m sm. induction ids as [|x ids IH]; intros m sm HI Hnd Hl.
  { simpl. rewrite list_fmap_id. rewrite <- (inv_sigs _ _ _ _ _ _ _ HI). by destruct m. }
  apply NoDup_cons in Hnd as [Hx Hnd]. apply Forall_cons in Hl as [[s Hs] Hl].
  rewrite fmap_cons. unfold run at 1. cbn [fold_left].
  fold (run K bh (step K bh m (Remove x)).1 (Remove <$> ids)).
  destruct (step_inv K L bh nb bw th m sm (Remove x) HI) as [HI' _].
  rewrite (IH _ _ HI' Hnd).
  2:{ simpl. rewrite Forall_forall in Hl |- *. intros y Hy.
      rewrite lookup_delete_ne by set_solver. auto. }
  cbn [step spec_step]. unfold remove. rewrite (inv_sigs _ _ _ _ _ _ _ HI), Hs. simpl.
  rewrite Hs. simpl.
  assert (Hfe : for_each_mut (band_remove K bh x s) (bands m) =
    ((fun b => default b (band_remove K bh x s b)) <$> bands m, false)).
  { apply for_each_mut_map. intros b Hbin. apply elem_of_list_lookup in Hbin as [i Hi].
    destruct (inv_band _ _ _ _ _ _ _ HI _ _ Hi) as [Hok _].
    destruct (band_remove_ok K L bh bw i b x s Hok) as (b' & -> & _); [|done].
    pose proof (band_le K nb bw _ _ _ (inv_len _ _ _ _ _ _ _ HI) Hi).
    pose proof (inv_size _ _ _ _ _ _ _ HI _ _ Hs). lia. }
  rewrite Hfe. simpl. unfold set_sigs, set_bands. simpl. f_equal.
  rewrite <- list_fmap_compose. apply list_fmap_ext. intros i b Hi.
  destruct (inv_band _ _ _ _ _ _ _ HI _ _ Hi) as [Hok _]. unfold compose, bulk_remove_body at 2.
  simpl.
  destruct (band_remove_ok K L bh bw i b x s Hok) as (b' & -> & _); [|done].
  pose proof (band_le K nb bw _ _ _ (inv_len _ _ _ _ _ _ _ HI) Hi).
  pose proof (inv_size _ _ _ _ _ _ _ HI _ _ Hs). lia.
Qed.

Lemma bulk_remove_seq m sm sched (ids : list Id) :
  Inv m sm -> NoDup ids -> Forall (fun x => is_Some (sm !! x)) ids ->
  (bulk_remove K bh sched ids m).1 = run K bh m (Remove <$> ids).
Proof.
  intros HI Hnd Hl. rewrite (remove_seq m sm) by done. unfold bulk_remove.
  rewrite (inv_sigs _ _ _ _ _ _ _ HI). unfold set_sigs at 2. simpl.
  by rewrite (bulk_remove_bands K L bh nb bw th m sm) by done.
Qed.

(** ** Band sizes *)
Local Notation distinct_keys := (SpecIndex.distinct_keys bw bh).

Lemma exact_size i sm b :
  band_ok K bw i b -> exact i sm b -> size (hash_table b) = distinct_keys sm i.
Proof.
  intros Hok [Hex _]. unfold distinct_keys.
  rewrite <- size_dom.
  rewrite <- (size_list_to_set (C := gset N) _ (NoDup_remove_dups _)).
  f_equal. apply set_eq. intros k.
  rewrite elem_of_dom, elem_of_list_to_set, elem_of_remove_dups, elem_of_list_fmap. split.
  - intros [c Hc]. pose proof (ok_ne _ _ _ _ Hok _ _ Hc) as Hne.
    destruct (ic_elems K c) as [|x l] eqn:Ec; [done|].
    assert (Hin : in_band K b k x) by (exists c; rewrite Ec; split; [done|by left]).
    apply Hex in Hin as (s & Hs & ->). exists s. split; [done|].
    apply elem_of_list_fmap. exists (x, s). split; [done|]. by apply elem_of_map_to_list.
  - intros (s & -> & ([x s'] & -> & Hs%elem_of_map_to_list)%elem_of_list_fmap). simpl.
    assert (Hin : in_band K b (bkey i s') x) by (apply Hex; eauto).
    destruct Hin as (c & Hc & _). eauto.
Qed.

Lemma max_by_Some {A} (cmp : A -> A -> comparison) l : l ≠ [] -> is_Some (max_by cmp l).
Proof. destruct l; [done|]. simpl. eauto. Qed.
Lemma min_by_Some {A} (cmp : A -> A -> comparison) l : l ≠ [] -> is_Some (min_by cmp l).
Proof. destruct l; [done|]. simpl. eauto. Qed.

Lemma max_by_from_nat acc l :
  max_by_from Nat.compare acc l ∈ acc :: l /\
  forall y, y ∈ acc :: l -> y <= max_by_from Nat.compare acc l.
Proof.
  revert acc. induction l as [|x l IH]; intros acc; simpl.
  { split; [by left|]. by intros y ->%elem_of_list_singleton. }
  destruct (IH (match Nat.compare acc x with Gt => acc | _ => x end)) as [H1 H2].
  set (r := max_by_from _ _ _) in *.
  assert (Hr : forall y, y = acc \/ y = x \/ y ∈ l -> y <= r).
  { intros y Hy. destruct (Nat.compare_spec acc x) as [E|E|E].
    - specialize (H2 x ltac:(by left)) as Hx. destruct Hy as [->|[->|Hy]]; [lia|lia|].
      apply H2. by right.
    - specialize (H2 x ltac:(by left)) as Hx. destruct Hy as [->|[->|Hy]]; [lia|lia|].
      apply H2. by right.
    - specialize (H2 acc ltac:(by left)) as Hx. destruct Hy as [->|[->|Hy]]; [lia|lia|].
      apply H2. by right. }
  split.
  - apply elem_of_cons in H1 as [H1|H1]; [|by right; right].
    rewrite H1. destruct (Nat.compare acc x); set_solver.
  - intros y Hy. apply Hr. set_solver.
Qed.

Lemma min_by_from_nat acc l :
  min_by_from Nat.compare acc l ∈ acc :: l /\
  forall y, y ∈ acc :: l -> min_by_from Nat.compare acc l <= y.
Proof.
  revert acc. induction l as [|x l IH]; intros acc; simpl.
  { split; [by left|]. by intros y ->%elem_of_list_singleton. }
  destruct (IH (match Nat.compare acc x with Gt => x | _ => acc end)) as [H1 H2].
  set (r := min_by_from _ _ _) in *.
  assert (Hr : forall y, y = acc \/ y = x \/ y ∈ l -> r <= y).
  { intros y Hy. destruct (Nat.compare_spec acc x) as [E|E|E].
    - specialize (H2 acc ltac:(by left)) as Hx. destruct Hy as [->|[->|Hy]]; [lia|lia|].
      apply H2. by right.
    - specialize (H2 acc ltac:(by left)) as Hx. destruct Hy as [->|[->|Hy]]; [lia|lia|].
      apply H2. by right.
    - specialize (H2 x ltac:(by left)) as Hx. destruct Hy as [->|[->|Hy]]; [lia|lia|].
      apply H2. by right. }
  split.
  - apply elem_of_cons in H1 as [H1|H1]; [|by right; right].
    rewrite H1. destruct (Nat.compare acc x); set_solver.
  - intros y Hy. apply Hr. set_solver.
Qed.

Lemma band_sizes_spec m :
  match band_sizes K m with
  | None => bands m = []
  | Some st =>
      sizes st = (fun b => size (hash_table b)) <$> bands m /\
      max_size st ∈ sizes st /\ min_size st ∈ sizes st /\
      forall z, z ∈ sizes st -> min_size st <= z <= max_size st
  end.
Proof.
  unfold band_sizes. set (f := fun b : band => size (hash_table b)).
  destruct (bands m) as [|b bs]; [done|]. simpl.
  destruct (max_by_from_nat (f b) (f <$> bs)) as [H1 H2].
  destruct (min_by_from_nat (f b) (f <$> bs)) as [H3 H4].
  split; [done|]. split; [done|]. split; [done|]. intros z Hz. auto.
Qed.

Lemma band_sizes_exact m sm st :
  Inv m sm -> (forall i b, bands m !! i = Some b -> exact i sm b) ->
  band_sizes K m = Some st -> sizes st = distinct_keys sm <$> seq 0 nb.
Proof.
  intros HI Hex Hst. pose proof (band_sizes_spec m) as Hs. rewrite Hst in Hs.
  destruct Hs as [-> _]. apply list_eq. intros i.
  rewrite !list_lookup_fmap.
  destruct (bands m !! i) as [b|] eqn:Hb.
  - pose proof (lookup_lt_Some _ _ _ Hb) as Hi. rewrite (inv_len _ _ _ _ _ _ _ HI) in Hi.
    rewrite lookup_seq_lt by done. simpl. f_equal. apply exact_size; [|by apply Hex].
    by destruct (inv_band _ _ _ _ _ _ _ HI _ _ Hb).
  - apply lookup_ge_None in Hb. rewrite (inv_len _ _ _ _ _ _ _ HI) in Hb.
    by rewrite lookup_seq_ge.
Qed.

(** ** shrink_to *)
Lemma shrink_panic m cap mc st :
  band_sizes K m = Some st ->
  (N.of_nat (index_size K m) <= 2 ^ 53)%N ->
  Forall (fun z => (N.of_nat z <= 2 ^ 53)%N) (sizes st) ->
  (shrink_to K cap mc m).2 = OPanic <->
  mc <= cap /\ exists z, z ∈ sizes st /\ index_size K m <= z.
Proof.
  intros Hst Hn Hz. pose proof (band_sizes_spec m) as Hs. rewrite Hst in Hs.
  destruct Hs as [Hsz _]. rewrite Hsz in *. unfold shrink_to.
  destruct (Nat.ltb_spec cap mc) as [Hlt|Hge]; [split; [done|intros [? _]; lia]|].
  unfold index_size in *.
  destruct (forallb _ _) eqn:Ef.
  - split; [done|]. intros (_ & z & Hin & Hle). exfalso.
    apply elem_of_list_fmap in Hin as (b & -> & Hb). rewrite forallb_forall in Ef.
    specialize (Ef b). rewrite <- elem_of_list_In in Ef. specialize (Ef Hb).
    unfold shrink_ratio in Ef. apply ratio_lt_one_iff in Ef; [lia| |lia].
    rewrite Forall_forall in Hz. apply Hz. apply elem_of_list_fmap. eauto.
  - split; [|done]. intros _. split; [done|].
    assert (existsb (fun b => negb (f64_lt (shrink_ratio K m b) f64_one)) (bands m) = true) as He.
    { clear -Ef. induction (bands m) as [|b bs IH]; [done|]. simpl in *.
      destruct (f64_lt _ _); simpl in *; auto. }
    apply existsb_exists in He as (b & Hb & Hneg). apply elem_of_list_In in Hb.
    exists (size (hash_table b)). split; [apply elem_of_list_fmap; eauto|].
    destruct (decide (size (id_signatures m) <= size (hash_table b))) as [|Hgt]; [done|].
    exfalso. apply negb_true_iff, not_true_iff_false in Hneg. apply Hneg.
    unfold shrink_ratio. apply ratio_lt_one_iff; [|lia|lia].
    rewrite Forall_forall in Hz. apply Hz. apply elem_of_list_fmap. eauto.
Qed.

(** A stored id keeps every band non-empty. *)
Lemma live_band_nonempty m sm i b : Inv m sm -> bands m !! i = Some b -> sm ≠ ∅ ->
  0 < size (hash_table b).
Proof.
  intros HI Hb Hne. apply map_choose in Hne as (x & s & Hs).
  destruct (inv_band _ _ _ _ _ _ _ HI _ _ Hb) as [_ Hcov].
  destruct (Hcov x s Hs) as (c & Hc & _).
  destruct (size (hash_table b)) eqn:E; [|lia].
  apply map_size_empty_iff in E. by rewrite E in Hc.
Qed.
End Facts.
