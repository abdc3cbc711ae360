(** Lemmas in the form used by the property theorems about the MinHash index. *)
From stdpp Require Import base list gmap.
From Coq Require Import NArith Reals.
From Verif Require Import Base Par ParFacts Float FloatFacts F64Facts Similarity SimilarityFacts
  Container ContainerFacts MinHashIndex SpecIndex
  MinHashIndexFacts MinHashIndexFacts2 MinHashIndexFacts3.
Local Open Scope nat_scope.

Section Thms.
Context {T : Type} `{!EqDecision T} {Id : Type} `{Countable Id}.
Implicit Types (k : container_kind) (bh : list T -> N) (nb bw : nat) (th : f64)
  (ops : list (op Id T)) (q s : list T).

Lemma after_inv k bh nb bw th ops :
  Inv (container k Id) bh nb bw th (after k bh nb bw th ops) (spec_map (nb * bw) ops).
Proof. apply run_inv, container_laws_all. Qed.

Lemma after_exact k bh nb bw th ops : clean (nb * bw) ops ->
  forall i b, bands (after k bh nb bw th ops) !! i = Some b ->
    exact (container k Id) bh bw i (spec_map (nb * bw) ops) b.
Proof. intros Hc. apply (run_exact _ (container_laws_all k)). done. Qed.

(** Pigeonhole over the bands. *)
Lemma mismatches_pigeonhole nb bw s q :
  length s = nb * bw -> length q = nb * bw ->
  length s < agreements s q + nb ->
  exists i, i < nb /\ share_band bw i s q.
Proof.
  intros Hs Hq Hlt.
  set (mism := filter (fun j => s !! j ≠ q !! j) (seq 0 (length s))).
  assert (Hcount : agreements s q + length mism = length s).
  { unfold mism, agreements.
    assert (Hf : forall l : list nat, length (filter (fun j => s !! j = q !! j) l) +
      length (filter (fun j => s !! j ≠ q !! j) l) = length l).
    { induction l as [|j l IH]; [done|]. rewrite !filter_cons.
      destruct (decide (s !! j = q !! j)), (decide (s !! j ≠ q !! j)); simpl; try done; lia. }
    by rewrite Hf, seq_length. }
  assert (Hdec : forall i, {exists j, i * bw <= j < (i + 1) * bw /\ s !! j ≠ q !! j} +
                           {share_band bw i s q}).
  { intros i. destruct (decide (Forall (fun j => s !! j = q !! j) (seq (i * bw) bw))) as [Hf|Hf].
    - right. intros j Hj. rewrite Forall_forall in Hf. apply Hf, elem_of_seq. lia.
    - left. apply not_Forall_Exists in Hf; [|apply _]. apply Exists_exists in Hf as (j & Hj & Hne).
      exists j. split; [|done]. apply elem_of_seq in Hj. lia. }
  assert (Hall : (forall i, i < nb -> exists j, i * bw <= j < (i + 1) * bw /\ s !! j ≠ q !! j) ->
     nb <= length mism).
  { intros Hm.
    assert (Hl : forall n, n <= nb -> exists l, length l = n /\ NoDup l /\
      forall j, j ∈ l -> j < n * bw /\ s !! j ≠ q !! j).
    { induction n as [|n IH]; intros Hn.
      - exists []. split; [done|]. split; [constructor|]. by intros j ?%elem_of_nil.
      - destruct IH as (l & Hlen & Hnd & Hl); [lia|].
        destruct (Hm n) as (j & Hj & Hne); [lia|].
        exists (j :: l). split; [simpl; lia|]. split.
        + constructor; [|done]. intros Hin. apply Hl in Hin. lia.
        + intros j' [->|Hj']%elem_of_cons; [split; [lia|done]|].
          apply Hl in Hj' as [? ?]. split; [|done]. lia. }
    destruct (Hl nb) as (l & <- & Hnd & Hin); [lia|].
    apply submseteq_length. apply NoDup_submseteq; [done|].
    intros j Hj. apply Hin in Hj as [Hj Hne]. unfold mism. apply elem_of_list_filter.
    split; [done|]. apply elem_of_seq. lia. }
  assert (Hsearch : forall n, n <= nb ->
     (forall i, i < n -> exists j, i * bw <= j < (i + 1) * bw /\ s !! j ≠ q !! j) \/
     exists i, i < n /\ share_band bw i s q).
  { induction n as [|n IH]; intros Hn; [left; lia|].
    destruct IH as [Hm|(i & Hi & Hsh)]; [lia| |right; exists i; split; [lia|done]].
    destruct (Hdec n) as [Hj|Hsh]; [|right; exists n; split; [lia|done]].
    left. intros i Hi. destruct (decide (i = n)) as [->|]; [done|]. apply Hm. lia. }
  destruct (Hsearch nb) as [Hm|?]; [lia| |done]. specialize (Hall Hm). lia.
Qed.

Lemma recall k bh nb bw th ops q :
  well_sized (nb * bw) (spec_map (nb * bw) ops) -> length q = nb * bw ->
  exists S, query (container k Id) bh (after k bh nb bw th ops) q = Some S /\
    forall id s i, spec_map (nb * bw) ops !! id = Some s -> f64_ge (sim s q) th = true ->
      i < nb -> share_band bw i s q -> id ∈ S.
Proof. intros Hw Hq. eapply query_recall; eauto using after_inv. Qed.

Lemma pigeonhole_recall k bh nb bw th ops q :
  well_sized (nb * bw) (spec_map (nb * bw) ops) -> length q = nb * bw ->
  exists S, query (container k Id) bh (after k bh nb bw th ops) q = Some S /\
    forall id s, spec_map (nb * bw) ops !! id = Some s -> f64_ge (sim s q) th = true ->
      length q - agreements s q < nb -> id ∈ S.
Proof.
  intros Hw Hq. destruct (recall k bh nb bw th ops q Hw Hq) as (S & HS & Hrec).
  exists S. split; [done|]. intros id s Hs Hge Hlt.
  pose proof (Hw _ _ Hs) as Hls.
  destruct (mismatches_pigeonhole nb bw s q Hls Hq) as (i & Hi & Hsh); [lia|]. eauto.
Qed.

Lemma self_query k bh nb bw th ops id s :
  well_sized (nb * bw) (spec_map (nb * bw) ops) ->
  0 < nb -> 0 < bw -> (N.of_nat (nb * bw) <= 2 ^ 53)%N -> f64_ge f64_one th = true ->
  spec_map (nb * bw) ops !! id = Some s ->
  exists S, query (container k Id) bh (after k bh nb bw th ops) s = Some S /\ id ∈ S.
Proof.
  intros Hw Hnb Hbw Hb Hth Hs. pose proof (Hw _ _ Hs) as Hl.
  destruct (recall k bh nb bw th ops s Hw Hl) as (S & HS & Hrec).
  exists S. split; [done|]. apply (Hrec id s 0); [done| |done|by intros j].
  rewrite sim_refl; [done|nia|by rewrite Hl].
Qed.

Lemma sigs_after k bh nb bw th ops :
  id_signatures (after k bh nb bw th ops) = spec_map (nb * bw) ops.
Proof. eapply inv_sigs, after_inv. Qed.

Lemma exact_answer k bh nb bw th ops q :
  clean (nb * bw) ops -> length q = nb * bw ->
  exists S, query (container k Id) bh (after k bh nb bw th ops) q = Some S /\
    forall id, id ∈ S <-> expected_answer nb bw bh th (spec_map (nb * bw) ops) q id.
Proof.
  intros Hc Hq. eapply query_exact; eauto using after_inv, after_exact, clean_well_sized.
Qed.

Lemma expected_answer_collision_free nb bw bh th (m : gmap Id (list T)) q id :
  collision_free bw bh -> well_sized (nb * bw) m -> length q = nb * bw ->
  expected_answer nb bw bh th m q id <->
  exists s, m !! id = Some s /\ f64_ge (sim s q) th = true /\
    exists i, i < nb /\ share_band bw i s q.
Proof.
  intros Hcf Hw Hq. split; intros (s & Hs & Hge & i & Hi & Hb); exists s; split_and!; auto;
    exists i; (split; [done|]).
  - apply nth_band_share. apply Hcf; [|by eapply nth_band_length|done].
    eapply nth_band_length; eauto.
  - by rewrite (share_band_nth _ _ _ _ Hb).
Qed.

Lemma history_independent k1 k2 bh nb bw th ops1 ops2 q :
  clean (nb * bw) ops1 -> clean (nb * bw) ops2 ->
  spec_map (nb * bw) ops1 = spec_map (nb * bw) ops2 ->
  query (container k1 Id) bh (after k1 bh nb bw th ops1) q =
  query (container k2 Id) bh (after k2 bh nb bw th ops2) q.
Proof.
  intros Hc1 Hc2 Heq. destruct (decide (length q = nb * bw)) as [Hq|Hq].
  - destruct (exact_answer k1 bh nb bw th ops1 q Hc1 Hq) as (S1 & -> & H1).
    destruct (exact_answer k2 bh nb bw th ops2 q Hc2 Hq) as (S2 & -> & H2).
    f_equal. apply set_eq. intros x. rewrite H1, H2, Heq. done.
  - erewrite !query_wrong_length; eauto using after_inv.
Qed.

(** With collision-free hashes not even the hash keys matter. *)
Lemma keys_independent k1 k2 bh1 bh2 nb bw th ops1 ops2 q :
  collision_free bw bh1 -> collision_free bw bh2 ->
  clean (nb * bw) ops1 -> clean (nb * bw) ops2 ->
  spec_map (nb * bw) ops1 = spec_map (nb * bw) ops2 ->
  query (container k1 Id) bh1 (after k1 bh1 nb bw th ops1) q =
  query (container k2 Id) bh2 (after k2 bh2 nb bw th ops2) q.
Proof.
  intros Hf1 Hf2 Hc1 Hc2 Heq. destruct (decide (length q = nb * bw)) as [Hq|Hq].
  - destruct (exact_answer k1 bh1 nb bw th ops1 q Hc1 Hq) as (S1 & -> & H1).
    destruct (exact_answer k2 bh2 nb bw th ops2 q Hc2 Hq) as (S2 & -> & H2).
    f_equal. apply set_eq. intros x. rewrite H1, H2, Heq.
    rewrite !expected_answer_collision_free; try done; by apply clean_well_sized.
  - erewrite !query_wrong_length; eauto using after_inv.
Qed.

Lemma query_one_any k bh nb bw th ops q order :
  f64_valid th = true ->
  well_sized (nb * bw) (spec_map (nb * bw) ops) -> length q = nb * bw -> is_order order ->
  exists r, query_one (container k Id) bh order (after k bh nb bw th ops) q = Some r /\
    match r with
    | Some (id, v) =>
        exists s, spec_map (nb * bw) ops !! id = Some s /\ v = sim s q /\ f64_gt v th = true /\
          forall id' s' i, spec_map (nb * bw) ops !! id' = Some s' -> i < nb ->
            share_band bw i s' q -> f64_gt (sim s' q) v = false
    | None =>
        forall id' s' i, spec_map (nb * bw) ops !! id' = Some s' -> i < nb ->
          share_band bw i s' q -> f64_gt (sim s' q) th = false
    end.
Proof.
  intros Hth Hw Hq Hord. pose proof (after_inv k bh nb bw th ops) as HI.
  destruct (candidates_spec _ bh nb bw th _ _ q HI) as (cs & Hcs & Hin); [lia|].
  assert (Hc : forall id s i, spec_map (nb * bw) ops !! id = Some s -> i < nb ->
    share_band bw i s q -> id ∈ cs).
  { intros id s i Hs Hi Hsh. apply Hin. destruct (bands_lookup _ _ _ _ _ _ _ i HI Hi) as [b Hb].
    exists i, b. split; [done|]. destruct (inv_band _ _ _ _ _ _ _ HI _ _ Hb) as [_ Hcov].
    rewrite <- (share_band_nth _ _ _ _ Hsh). by apply Hcov. }
  destruct (query_one_spec _ bh nb bw th _ _ q order cs Hth HI Hw Hq Hord Hcs) as (r & -> & Hr).
  exists r. split; [done|]. destruct r as [[id v]|].
  - destruct Hr as (s & Hs & _ & -> & Hg & Hmax). exists s. split_and!; eauto.
  - eauto.
Qed.

Lemma query_one_clean k bh nb bw th ops q order :
  f64_valid th = true ->
  clean (nb * bw) ops -> length q = nb * bw -> is_order order ->
  exists r, query_one (container k Id) bh order (after k bh nb bw th ops) q = Some r /\
    match r with
    | Some (id, v) =>
        candidate nb bw bh (spec_map (nb * bw) ops) q id /\
        exists s, spec_map (nb * bw) ops !! id = Some s /\ v = sim s q /\ f64_gt v th = true /\
          forall id' s', candidate nb bw bh (spec_map (nb * bw) ops) q id' ->
            spec_map (nb * bw) ops !! id' = Some s' -> f64_gt (sim s' q) v = false
    | None =>
        forall id' s', candidate nb bw bh (spec_map (nb * bw) ops) q id' ->
          spec_map (nb * bw) ops !! id' = Some s' -> f64_gt (sim s' q) th = false
    end.
Proof.
  intros Hth Hc Hq Hord. pose proof (after_inv k bh nb bw th ops) as HI.
  pose proof (after_exact k bh nb bw th ops Hc) as Hex.
  destruct (candidates_exact _ bh nb bw th _ _ q HI Hex) as (cs & Hcs & Hin); [lia|].
  destruct (query_one_spec _ bh nb bw th _ _ q order cs Hth HI
    (clean_well_sized _ _ _ Hc) Hq Hord Hcs) as (r & -> & Hr).
  exists r. split; [done|]. destruct r as [[id v]|].
  - destruct Hr as (s & Hs & Hx & -> & Hg & Hmax). split; [by apply Hin|].
    exists s. split_and!; auto. intros id' s' Hid'. apply Hmax. by apply Hin.
  - intros id' s' Hid'. apply Hr. by apply Hin.
Qed.

Lemma query_one_threshold_one k bh nb bw ops q order :
  well_sized (nb * bw) (spec_map (nb * bw) ops) -> length q = nb * bw -> is_order order ->
  (N.of_nat (nb * bw) <= 2 ^ 53)%N ->
  query_one (container k Id) bh order (after k bh nb bw f64_one ops) q = Some None.
Proof.
  intros Hw Hq Hord Hb.
  destruct (query_one_any k bh nb bw f64_one ops q order) as (r & -> & Hr); try done.
  destruct r as [[id v]|]; [|done]. exfalso.
  destruct Hr as (s & Hs & -> & Hg & _). pose proof (Hw _ _ Hs) as Hl.
  destruct (decide (0 < length s)) as [Hpos|Hz].
  - rewrite sim_le_one in Hg; [done|done|by rewrite Hl].
  - rewrite sim_nil in Hg by lia. done.
Qed.

(** Removing ids one by one gives the same map as filtering them out. *)
Lemma removes_filter n (ids : list Id) (m : gmap Id (list T)) :
  fold_left (spec_step n) (Remove <$> ids) m = filter (fun kv => kv.1 ∉ ids) m.
Proof.
  revert m. induction ids as [|x ids IH]; intros m; simpl.
  - rewrite map_filter_id; [done|]. intros i y _. apply not_elem_of_nil.
  - rewrite IH. apply map_eq. intros y. apply option_eq. intros t.
    rewrite !map_filter_lookup_Some, lookup_delete_Some. simpl.
    rewrite not_elem_of_cons. naive_solver.
Qed.

Lemma run_snoc (K : id_container Id) bh m ops o :
  run K bh m (ops ++ [o]) = (step K bh (run K bh m ops) o).1.
Proof. unfold run. by rewrite fold_left_app. Qed.

Lemma run_app (K : id_container Id) bh m ops1 ops2 :
  run K bh m (ops1 ++ ops2) = run K bh (run K bh m ops1) ops2.
Proof. unfold run. by rewrite fold_left_app. Qed.

Lemma bulk_insert_seq k bh nb bw th ops sched ids sigs :
  Forall (fun s => length s = nb * bw) sigs ->
  after k bh nb bw th (ops ++ [ParBulkInsert sched ids sigs]) =
  after k bh nb bw th (ops ++ ((fun p => Insert p.1 p.2) <$> zip ids sigs)).
Proof.
  intros Hs. unfold after. rewrite run_snoc, run_app. cbn [step].
  eapply bulk_seq; eauto using container_laws_all. apply after_inv.
Qed.

Lemma bulk_insert_pairs_seq k bh nb bw th ops sched (ps : list (Id * list T)) :
  Forall (fun p => length p.2 = nb * bw) ps ->
  after k bh nb bw th (ops ++ [ParBulkInsertPairs sched ps]) =
  after k bh nb bw th (ops ++ ((fun p => Insert p.1 p.2) <$> ps)).
Proof.
  intros Hs. unfold after. rewrite run_snoc, run_app. cbn [step].
  eapply bulk_pairs_seq; eauto using container_laws_all. apply after_inv.
Qed.

Lemma bulk_remove_as_seq k bh nb bw th ops sched ids :
  NoDup ids -> Forall (fun x => is_Some (spec_map (nb * bw) ops !! x)) ids ->
  after k bh nb bw th (ops ++ [BulkRemove sched ids]) =
  after k bh nb bw th (ops ++ (Remove <$> ids)).
Proof.
  intros Hnd Hl. unfold after. rewrite run_snoc, run_app. cbn [step].
  eapply bulk_remove_seq; eauto using container_laws_all. apply after_inv.
Qed.

Lemma shrink_small_panics k bh nb bw th ops cap mc :
  0 < nb -> mc <= cap ->
  size (spec_map (nb * bw) ops) <= 1 ->
  (forall st, band_sizes (container k Id) (after k bh nb bw th ops) = Some st ->
     Forall (fun z => (N.of_nat z <= 2 ^ 53)%N) (sizes st)) ->
  (step (container k Id) bh (after k bh nb bw th ops) (ShrinkTo cap mc)).2 = OPanic.
Proof.
  intros Hnb Hmc Hsz Hst. cbn [step]. pose proof (after_inv k bh nb bw th ops) as HI.
  destruct (band_sizes (container k Id) (after k bh nb bw th ops)) as [st|] eqn:E.
  - eapply shrink_panic;
      [apply container_laws_all|exact E|unfold index_size; rewrite sigs_after; lia|by apply Hst|].
    split; [done|]. destruct (bands_lookup _ _ _ _ _ _ _ 0 HI Hnb) as [b Hb0].
    exists (size (hash_table b)). pose proof (band_sizes_spec _ (container_laws_all k) (after k bh nb bw th ops)) as Hs.
    rewrite E in Hs. destruct Hs as [-> _]. split.
    + apply elem_of_list_fmap. exists b. split; [done|]. by eapply elem_of_list_lookup_2.
    + unfold index_size. rewrite sigs_after.
      destruct (decide (spec_map (nb * bw) ops = ∅)) as [->|Hne].
      * rewrite map_size_empty. lia.
      * pose proof (live_band_nonempty _ _ _ _ _ _ _ _ _ HI Hb0 Hne). lia.
  - pose proof (band_sizes_spec _ (container_laws_all k) (after k bh nb bw th ops)) as Hs. rewrite E in Hs.
    pose proof (inv_len _ _ _ _ _ _ _ HI) as Hlen. rewrite Hs in Hlen. simpl in Hlen. lia.
Qed.

Lemma panic_map_unchanged k bh nb bw th ops o id :
  (step (container k Id) bh (after k bh nb bw th ops) o).2 = OPanic ->
  get_signature (container k Id) (after k bh nb bw th (ops ++ [o])) id =
  get_signature (container k Id) (after k bh nb bw th ops) id.
Proof.
  intros Hp. unfold get_signature. rewrite !sigs_after. unfold spec_map.
  rewrite fold_left_app. cbn [fold_left]. fold (spec_map (nb * bw) ops).
  destruct (step_inv _ (container_laws_all k) bh nb bw th _ _ o (after_inv k bh nb bw th ops))
    as [_ Ho]. rewrite Hp in Ho. destruct o; simpl in *; try done.
  - by destruct (decide _).
  - by destruct (bulk_rejected _ _ _).
  - by destruct (pairs_too_short _ _).
Qed.

Lemma band_sizes_is_Some k bh nb bw th ops :
  0 < nb -> is_Some (band_sizes (container k Id) (after k bh nb bw th ops)).
Proof.
  intros Hnb.
  pose proof (band_sizes_spec _ (container_laws_all k) (after k bh nb bw th ops)) as Hs.
  destruct (band_sizes _ _); [eauto|].
  pose proof (inv_len _ _ _ _ _ _ _ (after_inv k bh nb bw th ops)) as Hlen.
  rewrite Hs in Hlen. simpl in Hlen. lia.
Qed.

Lemma no_empty_bucket k bh nb bw th ops b key c :
  b ∈ bands (after k bh nb bw th ops) -> hash_table b !! key = Some c ->
  ic_len (container k Id) c ≠ 0.
Proof.
  intros [i Hi]%elem_of_list_lookup Hc.
  destruct (inv_band _ _ _ _ _ _ _ (after_inv k bh nb bw th ops) _ _ Hi) as [Hok _].
  pose proof (ok_ne _ _ _ _ Hok _ _ Hc) as Hne. rewrite (law_len _ (container_laws_all k)).
  by destruct (ic_elems _ c).
Qed.

Lemma emptied k bh nb bw th ops :
  clean (nb * bw) ops -> spec_map (nb * bw) ops = ∅ ->
  forall b, b ∈ bands (after k bh nb bw th ops) -> hash_table b = ∅.
Proof.
  intros Hc Hm b [i Hi]%elem_of_list_lookup.
  pose proof (after_exact k bh nb bw th ops Hc i b Hi) as [Hex _].
  destruct (inv_band _ _ _ _ _ _ _ (after_inv k bh nb bw th ops) _ _ Hi) as [Hok _].
  apply map_empty. intros key. apply eq_None_not_Some. intros [c Hkc].
  pose proof (ok_ne _ _ _ _ Hok _ _ Hkc) as Hne.
  destruct (ic_elems (container k Id) c) as [|x l] eqn:E; [done|].
  destruct (proj1 (Hex key x)) as (s & Hs & _).
  - exists c. split; [done|]. rewrite E. by left.
  - by rewrite Hm in Hs.
Qed.

Lemma insert_wrong_length k bh nb bw th ops id s :
  length s ≠ nb * bw ->
  step (container k Id) bh (after k bh nb bw th ops) (Insert id s)
  = (after k bh nb bw th ops, OPanic).
Proof.
  intros Hs. cbn [step]. unfold insert.
  by rewrite (inv_n _ _ _ _ _ _ _ (after_inv k bh nb bw th ops)), decide_False by done.
Qed.

Lemma bulk_checks k bh nb bw th ops sched (ids : list Id) (sigs : list (list T)) ps :
  ((step (container k Id) bh (after k bh nb bw th ops) (ParBulkInsert sched ids sigs)).2 = OPanic
   <-> exists s0 rest, sigs = s0 :: rest /\
       (length s0 ≠ nb * bw \/ Exists (fun p => length p.2 < nb * bw) (zip ids sigs))) /\
  ((step (container k Id) bh (after k bh nb bw th ops) (ParBulkInsertPairs sched ps)).2 = OPanic
   <-> Exists (fun p => length p.2 < nb * bw) ps).
Proof.
  pose proof (fun o => step_inv _ (container_laws_all k) bh nb bw th _ _ o
    (after_inv k bh nb bw th ops)) as Hst. split.
  - destruct (Hst (ParBulkInsert sched ids sigs)) as [_ Ho]. rewrite Ho. clear Ho.
    unfold bulk_rejected, pairs_too_short. destruct sigs as [|s0 sigs].
    + split; [done|]. by intros (? & ? & ? & _).
    + destruct (bool_decide (length s0 ≠ nb * bw)) eqn:E1; simpl.
      { apply bool_decide_eq_true in E1. split; [|done]. intros _. eauto. }
      apply bool_decide_eq_false in E1.
      destruct (bool_decide _) eqn:E2.
      { apply bool_decide_eq_true in E2. split; [|done]. intros _. eauto. }
      apply bool_decide_eq_false in E2. split; [done|].
      intros (s1 & rest & [= <- <-] & [?|?]); done.
  - destruct (Hst (ParBulkInsertPairs sched ps)) as [_ Ho]. rewrite Ho. clear Ho.
    unfold pairs_too_short. destruct (bool_decide _) eqn:E2.
    + apply bool_decide_eq_true in E2. done.
    + apply bool_decide_eq_false in E2. done.
Qed.

Lemma shrink_keeps_state k bh nb bw th ops cap mc :
  after k bh nb bw th (ops ++ [ShrinkTo cap mc]) = after k bh nb bw th ops /\
  after k bh nb bw th (ops ++ [ShrinkToFit]) = after k bh nb bw th ops.
Proof.
  unfold after. rewrite !run_snoc. cbn [step]. split; [|done].
  unfold shrink_to. by repeat case_match.
Qed.

Lemma shrink_to_panics_iff k bh nb bw th ops cap mc st :
  band_sizes (container k Id) (after k bh nb bw th ops) = Some st ->
  (N.of_nat (size (spec_map (nb * bw) ops)) <= 2 ^ 53)%N ->
  Forall (fun z => (N.of_nat z <= 2 ^ 53)%N) (sizes st) ->
  (step (container k Id) bh (after k bh nb bw th ops) (ShrinkTo cap mc)).2 = OPanic <->
  mc <= cap /\ exists z, z ∈ sizes st /\ size (spec_map (nb * bw) ops) <= z.
Proof.
  intros Hst Hn Hz. cbn [step].
  rewrite (shrink_panic _ (container_laws_all k) _ cap mc st) by
    (try done; unfold index_size; by rewrite sigs_after).
  unfold index_size. by rewrite sigs_after.
Qed.
End Thms.
