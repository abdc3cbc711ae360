(** Histories with stopped bulk insertions. *)
From stdpp Require Import base list gmap.
From Coq Require Import NArith.
From Verif Require Import Base Par ParFacts Float Similarity Container ContainerFacts
  MinHashIndex SpecIndex SpecHistory SpecStopped MinHashIndexFacts MinHashIndexFacts2
  MinHashIndexThms HistoryFacts HistoryQueryFacts StoppedFacts.

Section Runs.
Context {T : Type} `{!EqDecision T}.
Context {Id : Type} `{Countable Id}.
Context (k : container_kind) (bh : list T -> N) (nb bw : nat) (th : f64).
Notation K := (container k Id).
Notation index := (index (carrier K) Id T).
Notation smap := (gmap Id (list T)).
Notation Inv := (Inv K bh nb bw th).
Notation kept_from := (kept_from k bh (nb * bw) bw).
Implicit Types (m : index) (sm : smap) (q : list T) (ops : list (op Id T)) (l : list (call T Id)).

Lemma run_kept_from m sm f ops :
  Inv m sm -> tallies k m f ->
  exists l, l.*1 = ops /\ Forall (legit nb bw) l /\
    tallies k (run K bh m ops) (fun i key x => kept_from i key x sm (f i key x) l).
Proof.
  revert m sm f. induction ops as [|o ops IH]; intros m sm f HI Hf; [by exists []|].
  destruct (step_kept k bh nb bw th m sm f o HI Hf) as (part & Hl & Ht).
  destruct (step_inv K (container_laws_all k) bh nb bw th m sm o HI) as [HI' _].
  destruct (IH _ _ _ HI' Ht) as (l & <- & Hls & Htl).
  exists ((o, part) :: l). split; [done|]. split; [by constructor|]. exact Htl.
Qed.

Lemma unscheduled_step sm o o' :
  unscheduled o = unscheduled o' -> spec_step (nb * bw) sm o = spec_step (nb * bw) sm o'.
Proof. destruct o, o'; simpl; try done; intros [= -> ->] || intros [= ->]; done. Qed.

Lemma run_attained_from m sm f l :
  Inv m sm -> tallies k m f -> Forall (legit nb bw) l ->
  exists ops, unscheduled <$> ops = unscheduled <$> l.*1 /\
    tallies k (run K bh m ops) (fun i key x => kept_from i key x sm (f i key x) l).
Proof.
  revert m sm f. induction l as [|c l IH]; intros m sm f HI Hf Hl; [by exists []|].
  apply Forall_cons in Hl as [Hc Hl].
  destruct (step_attained k bh nb bw th m sm f c HI Hf Hc) as (o & Ho & Ht).
  destruct (step_inv K (container_laws_all k) bh nb bw th m sm o HI) as [HI' _].
  rewrite (unscheduled_step sm _ _ Ho) in HI'.
  destruct (IH _ _ _ HI' Ht Hl) as (ops & Hops & Htl).
  exists (o :: ops). split; [|exact Htl]. rewrite !fmap_cons. by f_equal.
Qed.

Lemma unscheduled_map sm ops ops' :
  unscheduled <$> ops = unscheduled <$> ops' ->
  fold_left (spec_step (nb * bw)) ops sm = fold_left (spec_step (nb * bw)) ops' sm.
Proof.
  revert sm ops'. induction ops as [|o ops IH]; intros sm [|o' ops']; try done.
  rewrite !fmap_cons. intros [= Ho Hops]. simpl. rewrite (unscheduled_step sm _ _ Ho). by apply IH.
Qed.

Lemma new_tallies : tallies k (new_index K nb bw th : index) (fun _ _ _ => 0).
Proof. intros i b. simpl. rewrite list_lookup_fmap. intros (j & Hj & ->)%fmap_Some key x. done. Qed.

Lemma after_kept ops :
  exists l, l.*1 = ops /\ Forall (legit nb bw) l /\
    tallies k (after k bh nb bw th ops) (fun i key x => kept k bh (nb * bw) bw i key x l).
Proof. apply run_kept_from; [apply new_inv|apply new_tallies]. Qed.

Lemma after_attained l :
  Forall (legit nb bw) l ->
  exists ops, unscheduled <$> ops = unscheduled <$> l.*1 /\
    tallies k (after k bh nb bw th ops) (fun i key x => kept k bh (nb * bw) bw i key x l).
Proof. apply run_attained_from; [apply new_inv|apply new_tallies]. Qed.

(** ** Answers from the tallies *)
Lemma tallies_candidates m sm f q :
  Inv m sm -> tallies k m f -> length q = nb * bw ->
  exists cs, candidates K bh m q = Some cs /\
    forall x, x ∈ cs <-> exists i, i < nb /\ 0 < f i (bh (nth_band bw i q)) x.
Proof.
  intros HI Hf Hq. destruct (candidates_spec K bh nb bw th m sm q HI) as (cs & Hcs & Hin); [lia|].
  exists cs. split; [done|]. intros x. rewrite Hin. split.
  - intros (i & b & Hi & Hb). exists i. split.
    + rewrite <- (inv_len _ _ _ _ _ _ _ HI). by eapply lookup_lt_Some.
    + rewrite <- (Hf i b Hi). by apply tally_pos.
  - intros (i & Hi & Hp). destruct (lookup_lt_is_Some_2 (bands m) i) as [b Hb].
    { by rewrite (inv_len _ _ _ _ _ _ _ HI). }
    exists i, b. split; [done|]. apply tally_pos. by rewrite (Hf i b Hb).
Qed.

Lemma tallies_query m sm f q :
  Inv m sm -> tallies k m f -> well_sized (nb * bw) sm -> length q = nb * bw ->
  exists S, query K bh m q = Some S /\
    forall x, x ∈ S <-> exists s, sm !! x = Some s /\ f64_ge (sim s q) th = true /\
      exists i, i < nb /\ 0 < f i (bh (nth_band bw i q)) x.
Proof.
  intros HI Hf Hs Hq. destruct (query_exact_general K bh nb bw th m sm q HI Hs Hq) as (S & HS & Hin).
  exists S. split; [done|]. intros x. rewrite Hin.
  destruct (candidates_spec K bh nb bw th m sm q HI) as (cs & Hcs & Hin1); [lia|].
  destruct (tallies_candidates m sm f q HI Hf Hq) as (cs' & Hcs' & Hin2).
  rewrite Hcs in Hcs'. injection Hcs' as <-. rewrite <- Hin1, Hin2. naive_solver.
Qed.

Lemma same_tallies m m' sm f q :
  Inv m sm -> Inv m' sm -> tallies k m f -> tallies k m' f -> length q = nb * bw ->
  query K bh m q = query K bh m' q /\
  (forall order, query_one K bh order m q = query_one K bh order m' q) /\
  (forall order sort, query_owned_return_similarity K bh order sort m q =
     query_owned_return_similarity K bh order sort m' q) /\
  (forall order sort j, query_top_k K bh order sort m q j = query_top_k K bh order sort m' q j).
Proof.
  intros HI HI' Hf Hf' Hq.
  destruct (tallies_candidates m sm f q HI Hf Hq) as (cs & Hcs & Hin).
  destruct (tallies_candidates m' sm f q HI' Hf' Hq) as (cs' & Hcs' & Hin').
  assert (cs = cs') as <- by (apply set_eq; intros x; by rewrite Hin, Hin').
  pose proof (inv_sigs _ _ _ _ _ _ _ HI) as Hg. pose proof (inv_sigs _ _ _ _ _ _ _ HI') as Hg'.
  pose proof (inv_th _ _ _ _ _ _ _ HI) as Ht. pose proof (inv_th _ _ _ _ _ _ _ HI') as Ht'.
  pose proof (inv_n _ _ _ _ _ _ _ HI) as Hn. pose proof (inv_n _ _ _ _ _ _ _ HI') as Hn'.
  unfold query, query_one, query_owned_return_similarity, query_top_k,
    query_keep, query_one_item, query_sim_item, query_dist_item.
  rewrite Hcs, Hcs', Hg, Hg', Ht, Ht', Hn, Hn'. done.
Qed.
End Runs.

(** ** Consequences *)
Section Consequences.
Context {T : Type} `{!EqDecision T}.
Context {Id : Type} `{Countable Id}.
Context (k : container_kind) (bh : list T -> N) (nb bw : nat) (th : f64).
Notation K := (container k Id).
Notation smap := (gmap Id (list T)).
Implicit Types (q : list T) (ops : list (op Id T)) (l : list (call T Id)) (ps : list (Id * list T)).

Lemma kept_query_of ops l q :
  l.*1 = ops \/ unscheduled <$> ops = unscheduled <$> l.*1 ->
  tallies k (after k bh nb bw th ops) (fun i key x => kept k bh (nb * bw) bw i key x l) ->
  well_sized (nb * bw) (spec_map (nb * bw) ops) -> length q = nb * bw ->
  exists S, query K bh (after k bh nb bw th ops) q = Some S /\
    forall x, x ∈ S <-> kept_answer k bh nb bw th l q x.
Proof.
  intros Hl Ht Hs Hq.
  assert (Hm : spec_map (nb * bw) ops = spec_map (nb * bw) l.*1).
  { destruct Hl as [->|Hl]; [done|]. by apply unscheduled_map. }
  destruct (tallies_query k bh nb bw th _ _ _ q (after_inv k bh nb bw th ops) Ht Hs Hq)
    as (S & HS & Hin).
  exists S. split; [done|]. intros x. rewrite Hin, Hm. done.
Qed.

Lemma kept_ghost_of ops l q x order sort :
  l.*1 = ops \/ unscheduled <$> ops = unscheduled <$> l.*1 ->
  tallies k (after k bh nb bw th ops) (fun i key x => kept k bh (nb * bw) bw i key x l) ->
  length q = nb * bw -> is_order order -> kept_ghost k bh nb bw l q x ->
  query_owned_return_similarity K bh order sort (after k bh nb bw th ops) q = None /\
  forall j, query_top_k K bh order sort (after k bh nb bw th ops) q j = None.
Proof.
  intros Hl Ht Hq Hord [Hx Hd].
  assert (Hm : spec_map (nb * bw) ops = spec_map (nb * bw) l.*1).
  { destruct Hl as [->|Hl]; [done|]. by apply unscheduled_map. }
  pose proof (after_inv k bh nb bw th ops) as HI.
  destruct (tallies_candidates k bh nb bw th _ _ _ q HI Ht Hq) as (cs & Hcs & Hin).
  rewrite Hm in HI. split.
  - eapply similarity_dead; [exact HI|exact Hcs|done|by apply Hin|done].
  - intros j. eapply top_k_dead; [exact HI|exact Hcs|done|by apply Hin|done].
Qed.

Lemma tally_buckets ops (f : nat -> N -> Id -> nat) i b key x :
  tallies k (after k bh nb bw th ops) f -> bands (after k bh nb bw th ops) !! i = Some b ->
  length (filter (fun y => y = x)
    (match hash_table b !! key with Some c => ic_elems K c | None => [] end)) = f i key x.
Proof.
  intros Ht Hi. rewrite <- (Ht i b Hi key x). unfold tally, occ. by destruct (hash_table b !! key).
Qed.

Lemma notes_other i key (x : Id) ps c :
  x ∉ ps.*1 -> foldl (note k bh bw i key x) c ps = c.
Proof.
  revert c. induction ps as [|[y s] ps IH]; intros c Hx; [done|]. simpl in *.
  apply not_elem_of_cons in Hx as [Hne Hx]. rewrite IH by done. unfold note. simpl.
  rewrite decide_False; [done|]. naive_solver.
Qed.

(** Ids that are not stored do not show up in the answers of [query]. *)
Lemma stopped_fresh ops o ps q :
  stopped (nb * bw) o = Some ps ->
  (forall x, x ∈ ps.*1 -> spec_map (nb * bw) ops !! x = None) ->
  well_sized (nb * bw) (spec_map (nb * bw) ops) -> length q = nb * bw ->
  query K bh (after k bh nb bw th (ops ++ [o])) q = query K bh (after k bh nb bw th ops) q.
Proof.
  intros Hst Hfr Hs Hq. destruct (after_kept k bh nb bw th ops) as (l & _ & _ & Ht).
  pose proof (after_inv k bh nb bw th ops) as HI.
  destruct (step_kept k bh nb bw th _ _ _ o HI Ht) as (part & _ & Ht').
  destruct (step_inv K (container_laws_all k) bh nb bw th _ _ o HI) as [HI' _].
  assert (Hm : spec_step (nb * bw) (spec_map (nb * bw) ops) o = spec_map (nb * bw) ops).
  { destruct o; simpl in Hst |- *; try done.
    - destruct sigs as [|s0 sigs]; [done|]. unfold bulk_rejected.
      destruct (decide _) as [|]; [|done]. destruct (pairs_too_short _ _) eqn:E; [|done].
      by rewrite orb_true_r.
    - by destruct (pairs_too_short _ _). }
  rewrite Hm in HI'.
  assert (Ha : after k bh nb bw th (ops ++ [o]) = (step K bh (after k bh nb bw th ops) o).1).
  { unfold after, run. by rewrite fold_left_app. }
  rewrite Ha.
  destruct (tallies_query k bh nb bw th _ _ _ q HI Ht Hs Hq) as (S1 & H1 & Hin1).
  destruct (tallies_query k bh nb bw th _ _ _ q HI' Ht' Hs Hq) as (S2 & H2 & Hin2).
  rewrite H1, H2. f_equal. apply set_eq. intros x. rewrite Hin1, Hin2.
  assert (Hk : forall s, spec_map (nb * bw) ops !! x = Some s -> forall i key,
    kept_step k bh (nb * bw) bw i key x (spec_map (nb * bw) ops)
      (kept k bh (nb * bw) bw i key x l) (o, part) = kept k bh (nb * bw) bw i key x l).
  { intros s Hx i key. unfold kept_step. simpl. rewrite Hst. apply notes_other.
    intros Hin. rewrite fmap_take in Hin.
    assert (x ∈ ps.*1) as Hps%Hfr; [|congruence].
    eapply elem_of_submseteq; [exact Hin|apply submseteq_take]. }
  split; intros (s & Hx & Hg & i & Hi & Hp); exists s; (split; [done|]; split; [done|]; exists i; split; [done|]).
  - by rewrite (Hk s Hx) in Hp.
  - by rewrite (Hk s Hx).
Qed.

Lemma note_pos i key (x : Id) c p : 0 < c -> 0 < note k bh bw i key x c p.
Proof. unfold note. destruct (decide _); [destruct k; simpl; lia|done]. Qed.
Lemma notes_pos i key (x : Id) c ps : 0 < c -> 0 < foldl (note k bh bw i key x) c ps.
Proof. revert c. induction ps as [|p ps IH]; intros c Hc; [done|]. simpl. by apply IH, note_pos. Qed.
Lemma notes_in i key (x : Id) s c ps :
  (x, s) ∈ ps -> bh (nth_band bw i s) = key -> 0 < foldl (note k bh bw i key x) c ps.
Proof.
  intros Hin Hk. revert c. induction ps as [|p ps IH]; intros c; [by apply elem_of_nil in Hin|].
  apply elem_of_cons in Hin as [<-|Hin]; simpl; [|by apply IH].
  apply notes_pos. unfold note. simpl. rewrite decide_True by done. destruct k; simpl; lia.
Qed.

(** The first pairs of a stopped insertion can poison the queries under their keys. *)
Lemma stopped_poison ops o ps j x s i q order sort :
  stopped (nb * bw) o = Some ps ->
  ps !! j = Some (x, s) -> i < nb -> j < reach bw i ps ->
  spec_map (nb * bw) ops !! x = None ->
  length q = nb * bw -> bh (nth_band bw i q) = bh (nth_band bw i s) -> is_order order ->
  exists o', unscheduled o' = unscheduled o /\
    query_owned_return_similarity K bh order sort (after k bh nb bw th (ops ++ [o'])) q = None /\
    forall j', query_top_k K bh order sort (after k bh nb bw th (ops ++ [o'])) q j' = None.
Proof.
  intros Hst Hj Hi Hr Hx Hq Hk Hord.
  destruct (after_kept k bh nb bw th ops) as (l & _ & _ & Ht).
  pose proof (after_inv k bh nb bw th ops) as HI.
  assert (Hshort : exists i0, i0 < nb /\ reach bw i0 ps < length ps).
  { destruct (stopped_some k bh nb bw _ _ th o ps HI Hst) as (sched & _ & Ep & _).
    destruct (stopped_parts k bh nb bw th _ _ sched ps HI Ep) as (f & _ & (i0 & H1 & _ & H3) & _).
    eauto. }
  destruct (step_attained k bh nb bw th _ _ _ (o, fun i => reach bw i ps) HI Ht) as (o' & Ho' & Ht').
  { unfold legit. simpl. rewrite Hst. split; [lia|]. destruct Hshort as (i0 & ? & ?). eauto. }
  exists o'. split; [done|].
  destruct (step_inv K (container_laws_all k) bh nb bw th _ _ o' HI) as [HI' _].
  rewrite (unscheduled_step nb bw _ _ _ Ho') in HI'. simpl in HI'.
  assert (Hm : spec_step (nb * bw) (spec_map (nb * bw) ops) o = spec_map (nb * bw) ops).
  { destruct o; simpl in Hst |- *; try done.
    - destruct sigs as [|s0 sigs]; [done|]. unfold bulk_rejected.
      destruct (decide _) as [|]; [|done]. destruct (pairs_too_short _ _) eqn:E; [|done].
      by rewrite orb_true_r.
    - by destruct (pairs_too_short _ _). }
  rewrite Hm in HI'.
  assert (Ha : after k bh nb bw th (ops ++ [o']) = (step K bh (after k bh nb bw th ops) o').1).
  { unfold after, run. by rewrite fold_left_app. }
  rewrite Ha.
  destruct (tallies_candidates k bh nb bw th _ _ _ q HI' Ht' Hq) as (cs & Hcs & Hin).
  assert (Hxc : x ∈ cs).
  { apply Hin. exists i. split; [done|]. unfold kept_step. simpl. rewrite Hst.
    apply (notes_in _ _ _ s); [|done]. apply elem_of_list_lookup. exists j.
    by rewrite lookup_take by done. }
  split.
  - by eapply similarity_dead.
  - intros j'. by eapply top_k_dead.
Qed.

End Consequences.

(** ** A retry with hash sets *)
Section Retry.
Context {T : Type} `{!EqDecision T}.
Context {Id : Type} `{Countable Id}.
Context (bh : list T -> N) (nb bw : nat) (th : f64).
Notation K := (container KHashSet Id).
Notation snote := (note KHashSet bh bw).
Implicit Types (ps : list (Id * list T)) (ops : list (op Id T)).

Lemma set_notes i key (x : Id) ps c :
  foldl (snote i key x) c ps =
  if decide (Exists (fun p => p.1 = x /\ bh (nth_band bw i p.2) = key) ps) then 1 else c.
Proof.
  revert c. induction ps as [|p ps IH]; intros c; cbn [foldl].
  { rewrite decide_False; [done|]. by intros ?%Exists_nil. }
  rewrite IH. unfold note. cbn [noted].
  destruct (decide (Exists _ ps)) as [He|He].
  - rewrite decide_True; [done|]. by apply Exists_cons_tl.
  - destruct (decide (p.1 = x /\ bh (nth_band bw i p.2) = key)) as [Hp|Hp].
    + rewrite decide_True; [done|]. by apply Exists_cons_hd.
    + rewrite decide_False; [done|]. by intros [?|?]%Exists_cons.
Qed.

Lemma reach_long i j ps p : ps !! j = Some p -> j < reach bw i ps -> (i + 1) * bw <= length p.2.
Proof.
  revert j. induction ps as [|p' ps IH]; intros j Hj Hr; [done|]. simpl in Hr.
  destruct (decide _) as [Hl|]; [|lia]. destruct j as [|j]; simpl in Hj.
  - by injection Hj as <-.
  - apply (IH j); [done|lia].
Qed.

Lemma retry_set ops o ps sched ps' q :
  stopped (nb * bw) o = Some ps -> pairs_too_short (nb * bw) ps' = false ->
  repeats nb bw ps ps' -> length q = nb * bw ->
  let m := after KHashSet bh nb bw th (ops ++ [ParBulkInsertPairs sched ps']) in
  let m' := after KHashSet bh nb bw th (ops ++ [o; ParBulkInsertPairs sched ps']) in
  id_signatures m' = id_signatures m /\
  query K bh m' q = query K bh m q /\
  (forall order, query_one K bh order m' q = query_one K bh order m q) /\
  (forall order sort, query_owned_return_similarity K bh order sort m' q =
     query_owned_return_similarity K bh order sort m q) /\
  (forall order sort j, query_top_k K bh order sort m' q j = query_top_k K bh order sort m q j).
Proof.
  intros Hst Hok Hrep Hq m m'.
  destruct (after_kept KHashSet bh nb bw th ops) as (l & _ & _ & Ht).
  pose proof (after_inv KHashSet bh nb bw th ops) as HI.
  set (m0 := after KHashSet bh nb bw th ops) in *. set (sm := spec_map (nb * bw) ops) in *.
  set (r := ParBulkInsertPairs sched ps') in *.
  assert (Hr : stopped (nb * bw) r = None) by (simpl; by rewrite Hok).
  assert (Em : m = (step K bh m0 r).1) by (unfold m, m0, after, run; by rewrite fold_left_app).
  assert (Em' : m' = (step K bh (step K bh m0 o).1 r).1)
    by (unfold m', m0, after, run; by rewrite fold_left_app).
  assert (Hsm : spec_step (nb * bw) sm o = sm).
  { clear Em'. destruct o; simpl in Hst |- *; try done.
    - destruct sigs as [|s0 sigs]; [done|]. unfold bulk_rejected.
      destruct (decide _) as [|]; [|done]. destruct (pairs_too_short _ _) eqn:E; [|done].
      by rewrite orb_true_r.
    - by destruct (pairs_too_short _ _). }
  destruct (step_kept KHashSet bh nb bw th _ _ _ o HI Ht) as (part & Hleg & Hto).
  destruct (step_inv K (container_laws_all KHashSet) bh nb bw th _ _ o HI) as [HIo _].
  rewrite Hsm in HIo.
  destruct (step_inv K (container_laws_all KHashSet) bh nb bw th _ _ r HI) as [HIr _].
  destruct (step_inv K (container_laws_all KHashSet) bh nb bw th _ _ r HIo) as [HIor _].
  pose proof (step_tallies KHashSet bh nb bw th _ _ _ r HI Ht (stopped_none nb bw r Hr)) as Htr.
  pose proof (step_tallies KHashSet bh nb bw th _ _ _ r HIo Hto (stopped_none nb bw r Hr)) as Htor.
  rewrite <- Em in HIr, Htr. rewrite <- Em' in HIor, Htor.
  assert (Hsame : tallies KHashSet m' (fun i key x => marks_step KHashSet bh (nb * bw) bw i key x sm
     (kept KHashSet bh (nb * bw) bw i key x l) r)).
  { intros i b Hb key x. rewrite (Htor i b Hb key x).
    assert (Hi : i < nb).
    { rewrite <- (inv_len _ _ _ _ _ _ _ HIor). by eapply lookup_lt_Some. }
    unfold kept_step. simpl. rewrite Hst, Hok, !set_notes.
    destruct (decide (Exists _ ps')) as [He|He]; [done|].
    destruct (decide (Exists _ (take (part i) ps))) as [Hp|Hp]; [|done]. exfalso. apply He.
    apply Exists_exists in Hp as ([y s] & Hin & Hy & Hkey). simpl in Hy, Hkey. subst y.
    apply elem_of_list_lookup in Hin as [j Hj]. apply lookup_take_Some in Hj as [Hj Hlt].
    unfold legit in Hleg. simpl in Hleg. rewrite Hst in Hleg. destruct Hleg as [Hle _].
    specialize (Hle i Hi).
    pose proof (reach_long i j ps _ Hj ltac:(lia)) as Hlong. simpl in Hlong.
    destruct (Hrep x s i) as (s' & Hin' & Hnth); [by eapply elem_of_list_lookup_2|done|done|].
    apply Exists_exists. exists (x, s'). split; [done|]. simpl. by rewrite Hnth. }
  split.
  { by rewrite (inv_sigs _ _ _ _ _ _ _ HIor), (inv_sigs _ _ _ _ _ _ _ HIr). }
  exact (same_tallies KHashSet bh nb bw th m' m _ _ q HIor HIr Hsame Htr Hq).
Qed.
End Retry.
