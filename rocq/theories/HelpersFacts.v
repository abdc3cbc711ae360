(** Proofs about the private helper functions. *)
From stdpp Require Import base list gmap.
From Coq Require Import NArith Lia.
From Verif Require Import Base Par Float Similarity Container MinHashIndex SpecIndex SimHashBits Permutation
  SimHashIndex SpecSimHash Helpers SpecHelpers.
From Verif Require Import ParFacts ContainerFacts SimilarityFacts MinHashIndexFacts MinHashIndexThms
  SimHashIndexFacts.
Local Open Scope nat_scope.

Section MinHash.
Context {T : Type} `{!EqDecision T}.
Context {Id : Type} `{Countable Id}.
Context (K : id_container Id) (L : container_laws K).
Context (bh : list T -> N) (nb bw : nat).

Lemma has_ids_query i (b : band (carrier K)) q :
  band_ok K bw i b -> (i + 1) * bw <= length q ->
  exists r, has_ids K bh q b = Some r /\
    (r = true <-> exists x, in_band K b (bh (nth_band bw i q)) x) /\
    (r = true <-> is_Some (hash_table b !! bh (nth_band bw i q))).
Proof.
  intros Hok Hl. unfold has_ids. rewrite (band_key_ok K bh bw i b q Hok Hl). simpl.
  eexists. split; [reflexivity|]. unfold in_band.
  destruct (hash_table b !! bh (nth_band bw i q)) as [c|] eqn:E.
  - pose proof (ok_ne _ _ _ _ Hok _ _ E) as Hne. rewrite (law_len _ L).
    destruct (ic_elems K c) as [|x l] eqn:Ec; [done|]. simpl.
    split; (split; [intros _|done]); [|by eexists].
    exists x, c. split; [done|]. rewrite Ec. by left.
  - split; (split; [done|]); [by intros (x & c & ? & _)|by intros [? ?]].
Qed.

Lemma has_ids_short i (b : band (carrier K)) q :
  band_ok K bw i b -> length q < (i + 1) * bw -> has_ids K bh q b = None.
Proof. intros Hok Hl. unfold has_ids. by rewrite (band_key_short K bh bw i b q Hok Hl). Qed.

Lemma filter_keep_spec th (m : index (carrier K) Id T) sm q id :
  Inv K bh nb bw th m sm ->
  filter_keep K m q id =
    match sm !! id with
    | Some s => if decide (length s = length q) then Some (f64_ge (dist q s) th) else None
    | None => None
    end.
Proof.
  intros HI. unfold filter_keep, compute_minhash_distance.
  rewrite (MinHashIndexFacts.inv_sigs _ _ _ _ _ _ _ HI), (inv_th _ _ _ _ _ _ _ HI).
  destruct (sm !! id) as [s|]; [|done]. simpl. destruct (decide _) as [E|E].
  - by rewrite similarity_sim.
  - by rewrite similarity_panic.
Qed.

Lemma filter_res_none {A} (p : A -> res bool) l x :
  x ∈ l -> p x = None -> filter_res p l = None.
Proof.
  intros Hx Hp. destruct (filter_res p l) as [l'|] eqn:E; [|done]. exfalso.
  revert l' E. induction l as [|a l IH]; [by apply elem_of_nil in Hx|].
  intros l' E. simpl in E. destruct (p a) as [r|] eqn:Ea; [|done]. simpl in E.
  destruct (filter_res p l) as [l0|] eqn:El; [|done].
  apply elem_of_cons in Hx as [->|Hx]; [congruence|]. by eapply IH.
Qed.

Lemma filter_spec th (m : index (carrier K) Id T) sm q (cands : gset Id) :
  Inv K bh nb bw th m sm ->
  (forall id, id ∈ cands -> exists s, sm !! id = Some s /\ length s = length q) ->
  exists S, filter_by_minhash_similarity K m q cands = Some S /\
    forall id, id ∈ S <-> id ∈ cands /\ exists s, sm !! id = Some s /\ f64_ge (dist q s) th = true.
Proof.
  intros HI Hc. unfold filter_by_minhash_similarity.
  assert (HS : is_Some (filter_res (filter_keep K m q) (elements cands))).
  { apply filter_res_total. intros id Hid%elem_of_elements.
    destruct (Hc _ Hid) as (s & Hs & Hl).
    rewrite (filter_keep_spec _ _ _ _ _ HI), Hs, decide_True by done. eauto. }
  destruct HS as [l Hl]. rewrite Hl. simpl. eexists. split; [reflexivity|].
  intros id. rewrite elem_of_list_to_set, (filter_res_Some _ _ _ Hl), elem_of_elements.
  rewrite (filter_keep_spec _ _ _ _ _ HI). split; intros [Hid Hk]; (split; [done|]).
  - destruct (sm !! id) as [s|] eqn:Es; [|done]. destruct (decide _); [|done].
    exists s. split; [done|]. congruence.
  - destruct Hk as (s & Hs & Hk). destruct (Hc _ Hid) as (s' & Hs' & Hle).
    rewrite Hs. rewrite Hs in Hs'. injection Hs' as <-. rewrite decide_True by done.
    by rewrite Hk.
Qed.

Lemma filter_panic th (m : index (carrier K) Id T) sm q (cands : gset Id) id :
  Inv K bh nb bw th m sm -> id ∈ cands ->
  (forall s, sm !! id = Some s -> length s ≠ length q) ->
  filter_by_minhash_similarity K m q cands = None.
Proof.
  intros HI Hid Hs. unfold filter_by_minhash_similarity.
  rewrite (filter_res_none _ _ id); [done|by apply elem_of_elements|].
  rewrite (filter_keep_spec _ _ _ _ _ HI). destruct (sm !! id) as [s|] eqn:Es; [|done].
  rewrite decide_False; [done|]. by apply Hs.
Qed.
End MinHash.

Section SimHash.
Context {Id : Type} `{Countable Id}.

Lemma foldl_add l a : foldl Nat.add a l = a + sum_list l.
Proof. revert a. induction l as [|x l IH]; intros a; simpl; [lia|]. rewrite IH. lia. Qed.

Lemma sum_usize_list l : sum_usize l = sum_list l.
Proof. apply (foldl_add l 0). Qed.

(** The buckets partition the insertions. *)
Record counted (sigs : list N) (t : table Id) : Prop := {
  c_total : sum_list ((fun kv => length kv.2) <$> map_to_list (t_table t)) = length sigs;
  c_keys : dom (t_table t) =@{gset N} list_to_set ((fun s => N.land s (simple_mask (t_perm t))) <$> sigs);
}.

Lemma sum_list_perm l1 l2 : l1 ≡ₚ l2 -> sum_list l1 = sum_list l2.
Proof. induction 1; simpl; lia. Qed.

Lemma sum_insert (m : gmap N (list Id)) k id :
  sum_list ((fun kv => length kv.2) <$> map_to_list (<[k := default [] (m !! k) ++ [id]]> m))
  = S (sum_list ((fun kv => length kv.2) <$> map_to_list m)).
Proof.
  destruct (m !! k) as [l|] eqn:E; cbn [default].
  - rewrite <- insert_delete_insert.
    assert (Hp := map_to_list_insert (delete k m) k (l ++ [id]) (lookup_delete _ _)).
    rewrite (sum_list_perm _ _ (fmap_Permutation _ _ _ Hp)).
    assert (Hq := map_to_list_delete m k l E).
    rewrite <- (sum_list_perm _ _ (fmap_Permutation _ _ _ Hq)).
    cbn. rewrite app_length. cbn. lia.
  - assert (Hp := map_to_list_insert m k [id] E).
    cbn [app]. rewrite (sum_list_perm _ _ (fmap_Permutation _ _ _ Hp)). cbn. lia.
Qed.

Lemma counted_new p : counted [] (Table p ∅).
Proof.
  split; cbn.
  - by rewrite map_to_list_empty.
  - apply dom_empty_L.
Qed.

Lemma counted_insert sigs t id s : counted sigs t -> counted (sigs ++ [s]) (table_insert id s t).
Proof.
  intros [H1 H2]. split; unfold table_insert; cbn [t_table t_perm].
  - rewrite sum_insert, H1, app_length. cbn. lia.
  - rewrite dom_insert_L, H2, fmap_app, list_to_set_app_L. cbn. set_solver.
Qed.

Lemma counted_inserts ps sigs (m : sindex Id) :
  Forall (counted sigs) (hash_tables m) ->
  Forall (counted (sigs ++ ps.*2)) (hash_tables (sinserts ps m)) /\
  t_perm <$> hash_tables (sinserts ps m) = t_perm <$> hash_tables m.
Proof.
  unfold sinserts. revert sigs m. induction ps as [|p ps IH]; intros sigs m Hm; cbn [foldl].
  - cbn. by rewrite app_nil_r.
  - assert (Hm' : Forall (counted (sigs ++ [p.2])) (hash_tables (sinsert p.1 p.2 m))).
    { cbn. apply Forall_fmap. eapply Forall_impl; [exact Hm|]. intros t Ht. by apply counted_insert. }
    destruct (IH _ _ Hm') as [H1 H2]. split.
    + cbn [fmap list_fmap]. by rewrite <- app_assoc in H1.
    + etransitivity; [exact H2|]. cbn. by rewrite <- list_fmap_compose.
Qed.

Lemma zip_snd (ids : list Id) (sigs : list N) : (zip ids sigs).*2 = take (length ids) sigs.
Proof.
  revert sigs. induction ids as [|i ids IH]; intros [|s sigs]; cbn; try done. f_equal. apply IH.
Qed.

Lemma counted_step sigs (m : sindex Id) o :
  Forall (counted sigs) (hash_tables m) ->
  Forall (counted (sigs ++ sop_sigs o)) (hash_tables (sstep m o)) /\
  t_perm <$> hash_tables (sstep m o) = t_perm <$> hash_tables m.
Proof.
  intros Hm. destruct o as [id s|sched ids ss|sched ps]; cbn [sstep sop_sigs].
  - exact (counted_inserts [(id, s)] sigs m Hm).
  - rewrite spar_bulk_insert_eq, <- zip_snd. by apply counted_inserts.
  - rewrite spar_bulk_insert_pairs_eq. by apply counted_inserts.
Qed.

Lemma counted_run ops sigs (m : sindex Id) :
  Forall (counted sigs) (hash_tables m) ->
  Forall (counted (sigs ++ inserted ops)) (hash_tables (foldl sstep m ops)) /\
  t_perm <$> hash_tables (foldl sstep m ops) = t_perm <$> hash_tables m.
Proof.
  revert sigs m. induction ops as [|o ops IH]; intros sigs m Hm; cbn [foldl].
  - unfold inserted. cbn. by rewrite app_nil_r.
  - destruct (counted_step _ _ o Hm) as [H1 H2]. destruct (IH _ _ H1) as [H3 H4]. split.
    + unfold inserted. cbn. by rewrite <- app_assoc in H3.
    + by rewrite H4.
Qed.

Lemma counted_after W nb d ops (m : sindex Id) :
  safter W nb d ops = Some m ->
  Forall (counted (inserted ops)) (hash_tables m) /\
  exists m0 : sindex Id, sindex_new W nb d = Some m0 /\ t_perm <$> hash_tables m = t_perm <$> hash_tables m0.
Proof.
  unfold safter. destruct (sindex_new W nb d) as [m0|] eqn:E0; [|done]. cbn. intros [= <-].
  assert (H0 : Forall (counted []) (hash_tables m0)).
  { revert E0. unfold sindex_new. destruct (perm_create W nb d) as [[|p ps]|]; cbn; try done.
    intros [= <-]. cbn [hash_tables].
    change (Forall (counted []) ((fun p => Table p ∅ : table Id) <$> (p :: ps))).
    apply Forall_fmap, Forall_true. intros q. apply counted_new. }
  destruct (counted_run ops [] m0 H0) as [H1 H2]. cbn in H1. eauto.
Qed.

Lemma distinct_on_size mask sigs :
  distinct_on mask sigs = size (list_to_set ((fun s => N.land s mask) <$> sigs) : gset N).
Proof.
  unfold distinct_on. rewrite <- (size_list_to_set (C := gset N)) by apply NoDup_remove_dups.
  f_equal. apply set_eq. intros x. rewrite !elem_of_list_to_set, elem_of_remove_dups. done.
Qed.

Lemma table_avg sigs (t : table Id) : counted sigs t ->
  table_avg_bucket_count t =
    match sigs with
    | [] => None
    | _ => Some (length sigs / distinct_on (simple_mask (t_perm t)) sigs)
    end.
Proof.
  intros [H1 H2]. unfold table_avg_bucket_count. rewrite sum_usize_list, H1.
  rewrite <- (size_dom (D := gset N)), H2, <- distinct_on_size.
  destruct sigs as [|s sigs]; [done|].
  destruct (distinct_on _ _) as [|n] eqn:E; [|done]. exfalso.
  rewrite distinct_on_size in E. apply size_empty_inv in E. set_solver.
Qed.

Lemma omap_const {A B} (f : A -> option B) g (l : list A) :
  (forall x, x ∈ l -> f x = Some (g x)) -> omap f l = g <$> l.
Proof.
  induction l as [|x l IH]; intros Hf; [done|]. cbn. rewrite (Hf x) by by left.
  f_equal. apply IH. intros y Hy. apply Hf. by right.
Qed.

Lemma omap_none {A B} (f : A -> option B) (l : list A) :
  (forall x, x ∈ l -> f x = None) -> omap f l = [].
Proof.
  induction l as [|x l IH]; intros Hf; [done|]. cbn. rewrite (Hf x) by by left.
  apply IH. intros y Hy. apply Hf. by right.
Qed.

Lemma avg_spec sigs (m : sindex Id) : Forall (counted sigs) (hash_tables m) -> hash_tables m ≠ [] ->
  avg_bucket_count m =
    match sigs with
    | [] => 0
    | _ => sum_list ((fun p => length sigs / distinct_on (simple_mask p) sigs) <$> (t_perm <$> hash_tables m))
             / length (hash_tables m)
    end.
Proof.
  intros Hc Hne. unfold avg_bucket_count. rewrite Forall_forall in Hc.
  destruct sigs as [|s sigs].
  - rewrite omap_none; [done|]. intros t Ht. by rewrite (table_avg _ _ (Hc _ Ht)).
  - rewrite (omap_const _ (fun t => length (s :: sigs) / distinct_on (simple_mask (t_perm t)) (s :: sigs))).
    + rewrite fmap_length, sum_usize_list, <- list_fmap_compose.
      destruct (hash_tables m); done.
    + intros t Ht. by rewrite (table_avg _ _ (Hc _ Ht)).
Qed.

Lemma distinct_on_bounds mask s sigs : 1 <= distinct_on mask (s :: sigs) <= length (s :: sigs).
Proof.
  split.
  - destruct (distinct_on _ _) eqn:E; [|lia]. exfalso.
    rewrite distinct_on_size in E. apply size_empty_inv in E. set_solver.
  - unfold distinct_on. generalize (s :: sigs). intros l.
    rewrite <- (fmap_length (fun s => N.land s mask) l). apply submseteq_length.
    apply NoDup_submseteq; [apply NoDup_remove_dups|]. intros x. by rewrite elem_of_remove_dups.
Qed.

Lemma sum_bounds {A} (f : A -> nat) lo hi (l : list A) :
  (forall x, x ∈ l -> lo <= f x <= hi) -> lo * length l <= sum_list (f <$> l) <= hi * length l.
Proof.
  induction l as [|x l IH]; intros Hf; cbn; [lia|].
  pose proof (Hf x ltac:(by left)). specialize (IH ltac:(intros y Hy; apply Hf; by right)). lia.
Qed.
End SimHash.
