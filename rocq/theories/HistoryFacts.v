(** Contents of the buckets after any history. *)
From stdpp Require Import base list gmap fin_maps.
From Coq Require Import NArith.
From Verif Require Import Base Par ParFacts Float Container ContainerFacts MinHashIndex
  SpecIndex MinHashIndexFacts MinHashIndexThms SpecHistory.

Section Occ.
Context {Id : Type} `{Countable Id}.

Definition occ (l : list Id) (x : Id) : nat := length (filter (fun y => y = x) l).

Lemma occ_pos l x : 0 < occ l x <-> x ∈ l.
Proof.
  unfold occ. split.
  - intros Hp. destruct (filter _ l) as [|y l'] eqn:E; [simpl in Hp; lia|].
    assert (y ∈ filter (fun y => y = x) l) as [-> ?]%elem_of_list_filter by (rewrite E; left).
    done.
  - intros Hx. destruct (filter (fun y => y = x) l) as [|y l'] eqn:E; [|simpl; lia].
    assert (x ∈ filter (fun y => y = x) l) as Hin by (by apply elem_of_list_filter).
    rewrite E in Hin. by apply elem_of_nil in Hin.
Qed.

Lemma occ_nil x : occ [] x = 0.
Proof. done. Qed.

Lemma occ_cons y l x : occ (y :: l) x = if decide (y = x) then S (occ l x) else occ l x.
Proof. unfold occ. rewrite filter_cons. by destruct (decide (y = x)). Qed.

Lemma occ_perm l l' x : l ≡ₚ l' -> occ l x = occ l' x.
Proof. intros Hp. unfold occ. by rewrite Hp. Qed.

Lemma occ_zero l x : x ∉ l -> occ l x = 0.
Proof. intros Hx. destruct (occ l x) eqn:E; [done|]. exfalso. apply Hx, occ_pos. lia. Qed.

Lemma occ_nodup l x : NoDup l -> x ∈ l -> occ l x = 1.
Proof.
  intros Hn Hx. apply elem_of_Permutation in Hx as [l' Hp].
  rewrite (occ_perm _ _ _ Hp), occ_cons, decide_True by done. f_equal. apply occ_zero.
  rewrite Hp in Hn. by apply NoDup_cons in Hn as [].
Qed.

Lemma occ_push k x (c : carrier (container k Id)) y :
  occ (ic_elems (container k Id) (ic_push (container k Id) x c)) y =
  if decide (x = y) then noted k (occ (ic_elems (container k Id) c) y)
  else occ (ic_elems (container k Id) c) y.
Proof.
  assert (Hv : forall l : list Id, occ (l ++ [x]) y = if decide (x = y) then S (occ l y) else occ l y).
  { intros l. rewrite (occ_perm _ (x :: l)); [apply occ_cons|]. by rewrite Permutation_app_comm. }
  destruct k; simpl; [|apply Hv|apply Hv].
  destruct (decide (x = y)) as [->|Hne].
  - apply occ_nodup; [apply NoDup_elements|]. set_solver.
  - destruct (decide (y ∈ c)).
    + rewrite !occ_nodup; [done|apply NoDup_elements|set_solver|apply NoDup_elements|set_solver].
    + rewrite !occ_zero; [done|set_solver|set_solver].
Qed.

Lemma occ_remove k x (c : carrier (container k Id)) y :
  occ (ic_elems (container k Id) (ic_remove (container k Id) x c)) y =
  if decide (x = y) then forgotten k (occ (ic_elems (container k Id) c) y)
  else occ (ic_elems (container k Id) c) y.
Proof.
  assert (Hv : forall l : list Id, occ (vec_remove x l) y =
     if decide (x = y) then pred (occ l y) else occ l y).
  { intros l. destruct (vec_remove_spec x l) as [[Hx ->]|Hp].
    - destruct (decide (x = y)) as [<-|]; [|done]. by rewrite (occ_zero l x Hx).
    - rewrite <- (occ_perm _ _ y Hp), occ_cons. by destruct (decide (x = y)). }
  destruct k; simpl; [|apply Hv|apply Hv].
  destruct (decide (x = y)) as [->|Hne].
  - apply occ_zero. set_solver.
  - destruct (decide (y ∈ c)).
    + rewrite !occ_nodup; [done|apply NoDup_elements|set_solver|apply NoDup_elements|set_solver].
    + rewrite !occ_zero; [done|set_solver|set_solver].
Qed.
End Occ.

Section Facts.
Context {T : Type} `{!EqDecision T}.
Context {Id : Type} `{Countable Id}.
Context (k : container_kind) (bh : list T -> N) (nb bw : nat).

Notation K := (container k Id).
Notation band := (band (carrier K)).
Notation index := (index (carrier K) Id T).
Notation smap := (gmap Id (list T)).
Notation note := (note k bh bw).
Notation forget := (forget k bh bw).
Notation marks_step := (marks_step k bh (nb * bw) bw).
Notation band_ok := (band_ok K bw).
Notation Inv := (Inv K bh nb bw).
Implicit Types (b : band) (m : index) (sm : smap) (s q : list T).

(** How often [x] stands in the bucket of [key]. *)
Definition tally b (key : N) (x : Id) : nat :=
  match hash_table b !! key with Some c => occ (ic_elems K c) x | None => 0 end.

Lemma tally_pos b key x : 0 < tally b key x <-> in_band K b key x.
Proof.
  unfold tally, in_band. destruct (hash_table b !! key) as [c|].
  - rewrite occ_pos. split; [eauto|]. by intros (? & [= <-] & ?).
  - split; [lia|]. by intros (? & ? & _).
Qed.

Lemma band_insert_tally i b id s b' key x :
  band_ok i b -> (i + 1) * bw <= length s -> band_insert K bh id s b = Some b' ->
  tally b' key x = note i key x (tally b key x) (id, s).
Proof.
  intros Hb Hl. unfold band_insert. rewrite (band_key_ok K bh bw i) by done. simpl.
  intros [= <-]. unfold tally, SpecHistory.note. simpl.
  destruct (decide (bh (nth_band bw i s) = key)) as [<-|Hk].
  - rewrite lookup_insert, occ_push. destruct (hash_table b !! _) as [c|]; simpl.
    + destruct (decide (id = x)) as [->|].
      * by rewrite decide_True.
      * rewrite decide_False; [done|]. tauto.
    + rewrite (law_new _ (container_laws_all k)), occ_nil.
      destruct (decide (id = x)) as [->|].
      * by rewrite decide_True.
      * rewrite decide_False; [done|]. tauto.
  - rewrite lookup_insert_ne by done. rewrite decide_False; [done|]. tauto.
Qed.

Lemma band_remove_tally i b id s b' key x :
  band_ok i b -> (i + 1) * bw <= length s -> band_remove K bh id s b = Some b' ->
  tally b' key x = forget i key x (tally b key x) (s, id).
Proof.
  intros Hb Hl. unfold band_remove. rewrite (band_key_ok K bh bw i) by done. simpl.
  intros [= <-]. unfold tally, SpecHistory.forget. simpl.
  destruct (hash_table b !! bh (nth_band bw i s)) as [c|] eqn:E; simpl.
  2:{ destruct (decide _) as [[_ <-]|]; [|done]. rewrite E. by destruct k. }
  assert (Hempty : ic_is_empty K (ic_remove K id c) = true -> ic_elems K (ic_remove K id c) = []).
  { unfold ic_is_empty. rewrite Nat.eqb_eq, (law_len K (container_laws_all k)).
    apply length_zero_iff_nil. }
  destruct (decide (bh (nth_band bw i s) = key)) as [<-|Hk].
  - pose proof (occ_remove k id c x) as Ho. rewrite E.
    replace (if decide (id = x /\ bh (nth_band bw i s) = bh (nth_band bw i s))
             then forgotten k (occ (ic_elems K c) x) else occ (ic_elems K c) x)
      with (occ (ic_elems K (ic_remove K id c)) x).
    2:{ rewrite Ho. destruct (decide (id = x)).
        - by rewrite decide_True.
        - rewrite decide_False; [done|]. tauto. }
    destruct (ic_is_empty K (ic_remove K id c)).
    + rewrite lookup_delete. rewrite Hempty by done. done.
    + by rewrite lookup_insert.
  - rewrite decide_False by tauto. destruct (ic_is_empty K (ic_remove K id c)).
    + by rewrite lookup_delete_ne.
    + by rewrite lookup_insert_ne.
Qed.

Lemma insert_loop_tally i b ps key x :
  band_ok i b -> Forall (fun p => (i + 1) * bw <= length p.2) ps ->
  tally (seq_loop (bulk_body K bh) ps b).1 key x = foldl (note i key x) (tally b key x) ps.
Proof.
  revert b. induction ps as [|[id s] ps IH]; intros b Hb Hps; [done|].
  apply Forall_cons in Hps as [Hl Hps]. simpl. unfold bulk_body at 1. simpl in *.
  destruct (band_insert_ok K (container_laws_all k) bh bw i b id s Hb Hl)
    as (b' & Hb' & Hok & _).
  rewrite Hb'. rewrite IH by done. by rewrite (band_insert_tally i b id s b').
Qed.

Lemma remove_loop_tally i b ps key x :
  band_ok i b -> Forall (fun p => (i + 1) * bw <= length p.1) ps ->
  tally (seq_loop (bulk_remove_body K bh) ps b).1 key x =
  foldl (forget i key x) (tally b key x) ps.
Proof.
  revert b. induction ps as [|[s id] ps IH]; intros b Hb Hps; [done|].
  apply Forall_cons in Hps as [Hl Hps]. simpl. unfold bulk_remove_body at 1. simpl in *.
  destruct (band_remove_ok K (container_laws_all k) bh bw i b id s Hb Hl)
    as (b' & Hb' & Hok & _).
  rewrite Hb'. rewrite IH by done. by rewrite (band_remove_tally i b id s b').
Qed.

(** [f i key x] says how often. *)
Definition tallies m (f : nat -> N -> Id -> nat) : Prop :=
  forall i b, bands m !! i = Some b -> forall key x, tally b key x = f i key x.

Lemma insert_tallies th m sm f id s :
  Inv th m sm -> tallies m f ->
  tallies (insert K bh id s m).1 (fun i key x => marks_step i key x sm (f i key x) (Insert id s)).
Proof.
  intros HI Hf. pose proof HI as [Hlen Hband Hsig Hth Hn Hb Hr Hsz].
  unfold insert. simpl. rewrite Hn.
  destruct (decide (nb * bw = length s)) as [Hl|Hl].
  2:{ intros i b Hi key x. simpl. rewrite decide_False by congruence. by apply Hf. }
  destruct (for_each_mut_total (band_insert K bh id s) (bands m)) as (l' & Heq & HF).
  { intros b Hbin. apply elem_of_list_lookup in Hbin as [i Hi].
    destruct (Hband i b Hi) as [Hok _].
    destruct (band_insert_ok K (container_laws_all k) bh bw i b id s Hok) as (b' & -> & _); [|eauto].
    pose proof (band_le K nb bw _ _ _ Hlen Hi). lia. }
  rewrite Heq. simpl. intros i b' Hi' key x.
  simpl. rewrite decide_True by congruence.
  simpl in Hi'. destruct (Forall2_lookup_r _ _ _ _ _ HF Hi') as (b & Hi & Hbi).
  destruct (Hband i b Hi) as [Hok _].
  rewrite (band_insert_tally i b id s b'); [|done| |done].
  - by rewrite (Hf i b Hi).
  - pose proof (band_le K nb bw _ _ _ Hlen Hi). lia.
Qed.

Lemma pairs_tallies th m sm f sched ps :
  Inv th m sm -> tallies m f -> pairs_too_short (nb * bw) ps = false ->
  tallies (par_bulk_insert_pairs K bh sched ps m).1
    (fun i key x => foldl (note i key x) (f i key x) ps).
Proof.
  intros HI Hf Ep. pose proof HI as [Hlen Hband Hsig Hth Hn Hb Hr Hsz].
  pose proof (bulk_panic K (container_laws_all k) bh nb bw th m sm sched ps HI) as Hbp.
  rewrite Ep in Hbp.
  unfold par_bulk_insert_pairs. rewrite Hbp. simpl.
  assert (Hbs : (par_for_each (bulk_body K bh) sched ps (bands m)).1 =
    (fun b => (seq_loop (bulk_body K bh) ps b).1) <$> bands m) by (by apply par_for_each_ok).
  assert (Hlong : Forall (fun p => nb * bw <= length p.2) ps).
  { apply bool_decide_eq_false in Ep. apply not_Exists_Forall in Ep; [|apply _].
    eapply Forall_impl; [exact Ep|]. simpl. intros p; lia. }
  intros i b'. simpl. rewrite Hbs, list_lookup_fmap. intros (b & Hi & ->)%fmap_Some key x.
  destruct (Hband i b Hi) as [Hok _]. rewrite (insert_loop_tally i); [by rewrite (Hf i b Hi)|done|].
  eapply Forall_impl; [exact Hlong|]. simpl. intros p.
  pose proof (band_le K nb bw _ _ _ Hlen Hi). lia.
Qed.

Lemma remove_tallies th m sm f id :
  Inv th m sm -> tallies m f ->
  tallies (remove K bh id m).1 (fun i key x => marks_step i key x sm (f i key x) (Remove id)).
Proof.
  intros HI Hf. pose proof HI as [Hlen Hband Hsig Hth Hn Hb Hr Hsz].
  unfold remove. simpl. rewrite Hsig. destruct (sm !! id) as [s|] eqn:Es; [|done].
  destruct (for_each_mut_total (band_remove K bh id s) (bands m)) as (l' & Heq & HF).
  { intros b Hbin. apply elem_of_list_lookup in Hbin as [i Hi].
    destruct (Hband i b Hi) as [Hok _].
    destruct (band_remove_ok K (container_laws_all k) bh bw i b id s Hok) as (b' & -> & _); [|eauto].
    pose proof (band_le K nb bw _ _ _ Hlen Hi). specialize (Hsz _ _ Es). lia. }
  simpl. rewrite Heq. simpl. intros i b' Hi' key x.
  simpl in Hi'. destruct (Forall2_lookup_r _ _ _ _ _ HF Hi') as (b & Hi & Hbi).
  destruct (Hband i b Hi) as [Hok _].
  rewrite (band_remove_tally i b id s b'); [|done| |done].
  - by rewrite (Hf i b Hi).
  - pose proof (band_le K nb bw _ _ _ Hlen Hi). specialize (Hsz _ _ Es). lia.
Qed.

Lemma bulk_remove_tallies th m sm f sched ids :
  Inv th m sm -> tallies m f ->
  tallies (bulk_remove K bh sched ids m).1
    (fun i key x => marks_step i key x sm (f i key x) (BulkRemove sched ids)).
Proof.
  intros HI Hf. pose proof HI as [Hlen Hband Hsig Hth Hn Hb Hr Hsz].
  unfold bulk_remove. rewrite Hsig. unfold set_sigs at 2. simpl.
  rewrite (bulk_remove_bands K (container_laws_all k) bh nb bw th m sm) by done. simpl.
  pose proof (bulk_remove_long K bh nb bw th m sm ids HI) as Hlong.
  intros i b'. simpl. rewrite list_lookup_fmap. intros (b & Hi & ->)%fmap_Some key x.
  destruct (Hband i b Hi) as [Hok _]. rewrite (remove_loop_tally i).
  - rewrite (Hf i b Hi key x), (remove_all_nil bh ids sm). done.
  - exact Hok.
  - eapply Forall_impl; [exact Hlong|]. simpl. intros p.
    pose proof (band_le K nb bw _ _ _ Hlen Hi). lia.
Qed.

Lemma step_tallies th m sm f o :
  Inv th m sm -> tallies m f -> whole_op (nb * bw) o ->
  tallies (step K bh m o).1 (fun i key x => marks_step i key x sm (f i key x) o).
Proof.
  intros HI Hf Hw. destruct o; unfold step.
  - by apply (insert_tallies th).
  - simpl. unfold par_bulk_insert. destruct sigs as [|s0 sigs].
    + simpl. rewrite zip_with_nil_r. by apply (pairs_tallies th m sm f sched []).
    + simpl in Hw. rewrite (inv_n _ _ _ _ _ _ _ HI).
      destruct (decide (nb * bw = length s0)) as [Hl|Hl].
      * assert (Hr : bulk_rejected (nb * bw) ids (s0 :: sigs) = false).
        { unfold bulk_rejected. rewrite bool_decide_false by (intros ?; lia).
          apply Hw. by rewrite Hl. }
        rewrite Hr. apply (pairs_tallies th m sm f sched); [done|done|]. apply Hw. by rewrite Hl.
      * unfold bulk_rejected. rewrite bool_decide_true by (intros ?; lia). done.
  - simpl in *. rewrite Hw. by apply (pairs_tallies th m sm).
  - by apply (remove_tallies th).
  - by apply (bulk_remove_tallies th).
  - simpl. intros i b'. simpl. rewrite list_lookup_fmap. intros (b & Hi & ->)%fmap_Some key x.
    done.
  - simpl. done.
  - by rewrite shrink_to_state.
Qed.

Lemma run_tallies_from th m sm f ops :
  Inv th m sm -> tallies m f -> whole (nb * bw) ops ->
  tallies (run K bh m ops)
    (fun i key x => marks_from k bh (nb * bw) bw i key x sm (f i key x) ops).
Proof.
  revert m sm f. induction ops as [|o ops IH]; intros m sm f HI Hf Hw; [done|].
  apply Forall_cons in Hw as [Hw1 Hw2]. simpl.
  apply (IH (step K bh m o).1 (spec_step (nb * bw) sm o)
    (fun i key x => marks_step i key x sm (f i key x) o)); [|by apply (step_tallies th)|done].
  by apply step_inv; [apply container_laws_all|].
Qed.

Lemma run_tallies th ops :
  whole (nb * bw) ops ->
  tallies (after k bh nb bw th ops) (fun i key x => marks k bh (nb * bw) bw i key x ops).
Proof.
  intros Hw. unfold after, marks.
  apply (run_tallies_from th _ ∅ (fun _ _ _ => 0)); [apply new_inv| |done].
  intros i b. simpl. rewrite list_lookup_fmap. intros (j & Hj & ->)%fmap_Some key x. done.
Qed.

(** The number of times an id stands in a bucket, read off the model. *)
Lemma bucket_contents th ops i b key x :
  whole (nb * bw) ops -> bands (after k bh nb bw th ops) !! i = Some b ->
  length (filter (fun y => y = x)
    (match hash_table b !! key with Some c => ic_elems K c | None => [] end)) =
  marks k bh (nb * bw) bw i key x ops.
Proof.
  intros Hw Hi. rewrite <- (run_tallies th ops Hw i b Hi key x). unfold tally, occ.
  by destruct (hash_table b !! key).
Qed.

Lemma history_exact th ops q :
  whole (nb * bw) ops -> well_sized (nb * bw) (spec_map (nb * bw) ops) ->
  length q = nb * bw ->
  exists S, query K bh (after k bh nb bw th ops) q = Some S /\
    forall x, x ∈ S <-> history_answer k bh nb bw th ops q x.
Proof.
  intros Hw Hs Hq. pose proof (after_inv k bh nb bw th ops) as HI.
  destruct (query_exact_general K bh nb bw th _ _ q HI Hs Hq)
    as (S & HS & Hin).
  exists S. split; [done|]. intros x. rewrite Hin. unfold history_answer. split.
  - intros [(i & b & Hi & Hb) (s & Hm & Hge)]. exists s. split; [done|]. split; [done|].
    exists i. split.
    + rewrite <- (inv_len _ _ _ _ _ _ _ HI). by eapply lookup_lt_Some.
    + rewrite <- (run_tallies th ops Hw i b Hi). by apply tally_pos.
  - intros (s & Hm & Hge & i & Hi & Hp). split; [|eauto].
    destruct (lookup_lt_is_Some_2 (bands (after k bh nb bw th ops)) i) as [b Hb].
    { by rewrite (inv_len _ _ _ _ _ _ _ HI). }
    exists i, b. split; [done|]. apply tally_pos. by rewrite (run_tallies th ops Hw i b Hb).
Qed.
End Facts.

(** ** Calls on other ids *)
Section Alone.
Context {T : Type} `{!EqDecision T}.
Context {Id : Type} `{Countable Id}.
Context (k : container_kind) (bh : list T -> N) (n bw : nat).
Notation smap := (gmap Id (list T)).

Lemma step_other (x : Id) (sm : smap) (o : op Id T) :
  single o -> concerns x o = false -> spec_step n sm o !! x = sm !! x.
Proof.
  destruct o; simpl; try done; intros _ Hc%bool_decide_eq_false.
  - destruct (decide _); [|done]. by rewrite lookup_insert_ne.
  - by rewrite lookup_delete_ne.
Qed.

Lemma marks_other (x : Id) i key (sm : smap) c (o : op Id T) :
  single o -> concerns x o = false -> marks_step k bh n bw i key x sm c o = c.
Proof.
  destruct o; simpl; try done; intros _ Hc%bool_decide_eq_false.
  - destruct (decide _); [|done]. unfold note. rewrite decide_False; [done|]. naive_solver.
  - destruct (sm !! _); [|done]. unfold forget. rewrite decide_False; [done|]. naive_solver.
Qed.

Lemma step_same (x : Id) (sm sm' : smap) (o : op Id T) :
  single o -> sm !! x = sm' !! x -> spec_step n sm o !! x = spec_step n sm' o !! x.
Proof.
  destruct o; simpl; try done; intros _ Hx.
  - destruct (decide _); [|done]. destruct (decide (id = x)) as [->|].
    + by rewrite !lookup_insert.
    + by rewrite !lookup_insert_ne.
  - destruct (decide (id = x)) as [->|].
    + by rewrite !lookup_delete.
    + by rewrite !lookup_delete_ne.
Qed.

Lemma marks_same (x : Id) i key (sm sm' : smap) c (o : op Id T) :
  single o -> concerns x o = true -> sm !! x = sm' !! x ->
  marks_step k bh n bw i key x sm c o = marks_step k bh n bw i key x sm' c o.
Proof.
  destruct o; simpl; try done. intros _ Hc%bool_decide_eq_true Hx. subst. by rewrite Hx.
Qed.

Lemma alone_from (x : Id) i key (sm sm' : smap) c (ops : list (op Id T)) :
  Forall single ops -> sm !! x = sm' !! x ->
  marks_from k bh n bw i key x sm c ops =
    marks_from k bh n bw i key x sm' c (calls_on x ops) /\
  fold_left (spec_step n) ops sm !! x = fold_left (spec_step n) (calls_on x ops) sm' !! x.
Proof.
  revert sm sm' c. induction ops as [|o ops IH]; intros sm sm' c Hs Hx; [done|].
  apply Forall_cons in Hs as [Ho Hs]. simpl. destruct (concerns x o) eqn:E; simpl.
  - rewrite (marks_same x i key sm sm') by done. apply IH; [done|]. by apply step_same.
  - rewrite marks_other by done. apply IH; [done|]. by rewrite step_other.
Qed.

Lemma alone (x : Id) (ops : list (op Id T)) :
  Forall single ops ->
  (forall i key, marks k bh n bw i key x ops = marks k bh n bw i key x (calls_on x ops)) /\
  spec_map n ops !! x = spec_map n (calls_on x ops) !! x.
Proof.
  intros Hs. split.
  - intros i key. exact (proj1 (alone_from x i key ∅ ∅ 0 ops Hs eq_refl)).
  - exact (proj2 (alone_from x 0 0%N ∅ ∅ 0 ops Hs eq_refl)).
Qed.

Lemma single_whole (ops : list (op Id T)) : Forall single ops -> whole n ops.
Proof. intros Hs. eapply Forall_impl; [exact Hs|]. by intros []. Qed.

Lemma single_calls_on (x : Id) (ops : list (op Id T)) :
  Forall single ops -> Forall single (calls_on x ops).
Proof.
  intros Hs. apply Forall_forall. intros o Ho%elem_of_list_In.
  apply filter_In in Ho as [Ho%elem_of_list_In _]. rewrite Forall_forall in Hs. auto.
Qed.

Lemma single_sized (ops : list (op Id T)) : Forall single ops -> well_sized n (spec_map n ops).
Proof.
  unfold spec_map. assert (He : well_sized n (∅ : smap)) by (intros x s; by rewrite lookup_empty).
  generalize (∅ : smap) He. clear He.
  induction ops as [|o ops IH]; intros sm Hm Hs; [done|].
  apply Forall_cons in Hs as [Ho Hs]. simpl. apply IH; [|done].
  destruct o; simpl in *; try done.
  - destruct (decide _); [|done]. intros x t.
    destruct (decide (id = x)) as [->|]; [rewrite lookup_insert; by intros [= <-]|].
    rewrite lookup_insert_ne by done. apply Hm.
  - intros x t [_ Ht]%lookup_delete_Some. by eapply Hm.
Qed.
End Alone.

Section More.
Context {T : Type} `{!EqDecision T}.
Context {Id : Type} `{Countable Id}.

Lemma answer_alone k (bh : list T -> N) nb bw th (ops : list (op Id T)) q x :
  Forall single ops ->
  history_answer k bh nb bw th ops q x <-> history_answer k bh nb bw th (calls_on x ops) q x.
Proof.
  intros Hs. destruct (alone k bh (nb * bw) bw x ops Hs) as [Hm Hx].
  unfold history_answer. rewrite Hx. by setoid_rewrite Hm.
Qed.

Lemma query_alone k (bh : list T -> N) nb bw th (ops : list (op Id T)) q x :
  Forall single ops -> length q = nb * bw ->
  exists S1 S2,
    query (container k Id) bh (after k bh nb bw th ops) q = Some S1 /\
    query (container k Id) bh (after k bh nb bw th (calls_on x ops)) q = Some S2 /\
    (x ∈ S1 <-> x ∈ S2).
Proof.
  intros Hs Hq. pose proof (single_calls_on x ops Hs) as Hs'.
  destruct (history_exact k bh nb bw th ops q) as (S1 & H1 & Hi1);
    [by apply single_whole|by apply single_sized|done|].
  destruct (history_exact k bh nb bw th (calls_on x ops) q) as (S2 & H2 & Hi2);
    [by apply single_whole|by apply single_sized|done|].
  exists S1, S2. split; [done|]. split; [done|]. rewrite Hi1, Hi2. by apply answer_alone.
Qed.

Lemma query_reorder k (bh : list T -> N) nb bw th (ops ops' : list (op Id T)) q :
  Forall single ops -> Forall single ops' ->
  (forall x, calls_on x ops = calls_on x ops') ->
  query (container k Id) bh (after k bh nb bw th ops) q =
  query (container k Id) bh (after k bh nb bw th ops') q.
Proof.
  intros Hs Hs' Hx. destruct (decide (length q = nb * bw)) as [Hq|Hq].
  - destruct (history_exact k bh nb bw th ops q) as (S1 & H1 & Hi1);
      [by apply single_whole|by apply single_sized|done|].
    destruct (history_exact k bh nb bw th ops' q) as (S2 & H2 & Hi2);
      [by apply single_whole|by apply single_sized|done|].
    rewrite H1, H2. f_equal. apply set_eq. intros x.
    rewrite Hi1, Hi2, (answer_alone k bh nb bw th ops) by done.
    rewrite (answer_alone k bh nb bw th ops') by done. by rewrite Hx.
  - unfold query. rewrite (inv_n _ _ _ _ _ _ _ (after_inv k bh nb bw th ops)).
    rewrite (inv_n _ _ _ _ _ _ _ (after_inv k bh nb bw th ops')).
    by rewrite !decide_False by congruence.
Qed.

(** A set forgets at least as much as a vector. *)
Lemma marks_le k (bh : list T -> N) n bw i key (x : Id) sm c c' ops :
  k <> KHashSet -> c <= c' ->
  marks_from KHashSet bh n bw i key x sm c ops <= marks_from k bh n bw i key x sm c' ops.
Proof.
  intros Hk. revert sm c c'. 
  assert (Hn : forall d d' p, d <= d' ->
    note KHashSet bh bw i key x d p <= note k bh bw i key x d' p).
  { intros d d' p Hd. unfold note. destruct (decide _); [|done]. destruct k; simpl; [done|lia|lia]. }
  assert (Hf : forall d d' p, d <= 1 -> d <= d' ->
    forget KHashSet bh bw i key x d p <= forget k bh bw i key x d' p).
  { intros d d' p H1 Hd. unfold forget. destruct (decide _); [|done]. simpl. lia. }
  assert (Hnl : forall ps d d', d <= d' ->
    foldl (note KHashSet bh bw i key x) d ps <= foldl (note k bh bw i key x) d' ps).
  { induction ps as [|p ps IH]; intros d d' Hd; [done|]. simpl. apply IH. by apply Hn. }
  assert (Hfl : forall ps d d', d <= d' ->
    foldl (forget KHashSet bh bw i key x) d ps <= foldl (forget k bh bw i key x) d' ps).
  { induction ps as [|p ps IH]; intros d d' Hd; [done|]. simpl. apply IH.
    unfold forget. destruct (decide _); [simpl; lia|done]. }
  induction ops as [|o ops IH]; intros sm c c' Hc; [done|]. simpl. apply IH.
  destruct o; simpl; auto.
  - destruct (decide _); [|done]. by apply Hn.
  - destruct (bulk_rejected _ _ _); [done|]. by apply Hnl.
  - destruct (pairs_too_short _ _); [done|]. by apply Hnl.
  - destruct (sm !! _); [|done]. unfold forget. destruct (decide _); [simpl; lia|done].
Qed.

Lemma set_below_vec k (bh : list T -> N) nb bw th (ops : list (op Id T)) q S1 S2 :
  k <> KHashSet -> whole (nb * bw) ops -> well_sized (nb * bw) (spec_map (nb * bw) ops) ->
  query (container KHashSet Id) bh (after KHashSet bh nb bw th ops) q = Some S1 ->
  query (container k Id) bh (after k bh nb bw th ops) q = Some S2 -> S1 ⊆ S2.
Proof.
  intros Hk Hw Hs H1 H2.
  assert (Hq : length q = nb * bw).
  { unfold query in H1. rewrite (inv_n _ _ _ _ _ _ _ (after_inv KHashSet bh nb bw th ops)) in H1.
    destruct (decide _); [congruence|done]. }
  destruct (history_exact KHashSet bh nb bw th ops q) as (S1' & H1' & Hi1); [done..|].
  destruct (history_exact k bh nb bw th ops q) as (S2' & H2' & Hi2); [done..|].
  rewrite H1 in H1'. rewrite H2 in H2'. injection H1' as <-. injection H2' as <-.
  intros x. rewrite Hi1, Hi2. intros (s & Hm & Hge & i & Hi & Hp).
  exists s. split; [done|]. split; [done|]. exists i. split; [done|].
  eapply Nat.lt_le_trans; [exact Hp|]. by apply marks_le.
Qed.
End More.
