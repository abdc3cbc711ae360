(** C85: the MinHash index in builds with debug assertions. *)
From stdpp Require Import base list gmap.
From Coq Require Import NArith Lia.
From Verif Require Import Base Par ParFacts Float Similarity Container MinHashIndex SpecIndex ListFacts DebugBuild DebugFacts.

(** No band of the signature has the hash 0. *)
Definition nonzero {T} (nb bw : nat) (bh : list T -> N) (s : list T) : Prop :=
  forall i, i < nb -> bh (nth_band bw i s) ≠ 0%N.

(** The signatures a call inserts. *)
Definition inserted {Id T} (o : op Id T) : list (list T) :=
  match o with
  | Insert _ s => [s]
  | ParBulkInsert _ ids sigs => take (length ids) sigs
  | ParBulkInsertPairs _ ps => ps.*2
  | _ => []
  end.

Section Props.
Context {T : Type} `{!EqDecision T}.
Context {Id : Type} `{Countable Id}.
Context (k : container_kind) (bh : list T -> N) (eager : bool) (nb bw : nat) (th : f64).
Notation K := (container k Id).
Notation dst := (dstep K bh eager).
Notation st := (step K bh).

Lemma nth_slice i s v : slice s (i * bw) ((i + 1) * bw) = Some v -> v = nth_band bw i (s : list T).
Proof. unfold slice. case_decide; [|done]. intros [= <-]. unfold nth_band. f_equal. lia. Qed.
Lemma nonzero_live s : nonzero nb bw bh s -> live bh nb bw s.
Proof.
  intros Hs p Hp. apply elem_of_list_fmap in Hp as (i & -> & Hi). apply elem_of_seq in Hi. cbn [fst snd].
  destruct (slice s (i * bw) ((i + 1) * bw)) as [v|] eqn:E; [|done]. apply nth_slice in E as ->. cbn.
  intros [= E]. apply (Hs i); [lia|done].
Qed.
Lemma inserted_sigs (o : op Id T) : sigs_of o = inserted o.
Proof.
  destruct o as [|sched ids sigs| | | | | |]; try done. cbn. revert sigs. induction ids as [|id ids IH]; intros sigs; [done|].
  destruct sigs as [|s sigs]; [done|]. cbn. by rewrite IH.
Qed.
Lemma inserted_live (ops : list (op Id T)) : Forall (nonzero nb bw bh) (ops ≫= inserted) -> Forall (live bh nb bw) (ops ≫= sigs_of).
Proof.
  intros Hops. assert (E : ops ≫= sigs_of = ops ≫= inserted).
  { clear Hops. induction ops as [|o ops IH]; [done|]. cbn. rewrite inserted_sigs. f_equal. exact IH. }
  rewrite E. eapply Forall_impl; [exact Hops|]. exact nonzero_live.
Qed.

(** As long as no band hashes to 0 nothing changes. *)
Theorem C85_same (ops : list (op Id T)) : Forall (nonzero nb bw bh) (ops ≫= inserted) ->
  dafter k bh eager nb bw th ops = after k bh nb bw th ops /\
  drun_out K bh eager (new_index K nb bw th) ops = run_out K bh (new_index K nb bw th) ops.
Proof.
  intros Hops. exact (runs_same K bh eager nb bw _ ops (new_framed K bh nb bw th) (inserted_live ops Hops)).
Qed.

(** The rest is about the index after any history, with caught panics or not. *)
Context (ops : list (op Id T)).
Notation m := (dafter k bh eager nb bw th ops).

Lemma framed_m : framed K bh nb bw m.
Proof. exact (drun_framed K bh eager nb bw _ ops (new_framed K bh nb bw th)). Qed.
Lemma band_at i b : bands m !! i = Some b -> i < nb /\ bounds K b = (i * bw, (i + 1) * bw).
Proof.
  intros Hb. pose proof (fr_bounds _ _ _ _ _ framed_m) as E. apply (f_equal (fun l => l !! i)) in E.
  rewrite list_lookup_fmap, Hb in E. cbn in E. symmetry in E. unfold frame in E.
  apply list_lookup_fmap_Some in E as (j & Ej & E). apply lookup_seq in Ej as [-> Hj]. split; [lia|]. exact E.
Qed.
Lemma band_there i : i < nb -> exists b, bands m !! i = Some b.
Proof.
  intros Hi. apply lookup_lt_is_Some. pose proof (fr_bounds _ _ _ _ _ framed_m) as E. apply (f_equal length) in E.
  unfold frame in E. rewrite !fmap_length, seq_length in E. lia.
Qed.
Lemma key_at i b s : nb * bw <= length s -> bands m !! i = Some b -> band_key K bh b s = Some (bh (nth_band bw i s)).
Proof.
  intros Hl Hb. apply band_at in Hb as [Hi E]. unfold bounds in E. injection E as E1 E2. unfold band_key. rewrite E1, E2.
  unfold slice. rewrite decide_True by nia. cbn. unfold nth_band. do 3 f_equal. lia.
Qed.

(** An insertion with a band that hashes to 0 panics; the bands before it have the id, the others
    and the id map do not. *)
Theorem C85_insert (id : Id) (s : list T) : length s = nb * bw ->
  (nonzero nb bw bh s -> dst m (Insert id s) = st m (Insert id s)) /\
  (forall i, i < nb -> (forall j, j < i -> bh (nth_band bw j s) ≠ 0%N) -> bh (nth_band bw i s) = 0%N ->
    (dst m (Insert id s)).2 = OPanic /\ id_signatures (dst m (Insert id s)).1 = id_signatures m /\
    forall j b, bands m !! j = Some b ->
      bands (dst m (Insert id s)).1 !! j = if decide (j < i) then band_insert K bh id s b else Some b).
Proof.
  intros Hl. split.
  { intros Hs. apply (step_same K bh eager nb bw); [exact framed_m|]. constructor; [by apply nonzero_live|constructor]. }
  intros i Hi Hbefore Hz. destruct (band_there i Hi) as [b Hb].
  pose proof (take_drop_middle _ _ _ Hb) as Hsplit. cbn [dstep]. unfold dinsert.
  rewrite decide_True by (rewrite (fr_num _ _ _ _ _ framed_m); done). cbv zeta.
  destruct (for_each_stop (dband_insert K bh id s) (take i (bands m)) b (drop (S i) (bands m))) as (l1 & E & HF).
  { unfold dband_insert. rewrite (key_at i) by (done || lia). cbn [mbind option_bind]. by rewrite Hz. }
  { intros t Ht. apply elem_of_take in Ht as (j & Hj & Hji). unfold dband_insert. rewrite (key_at j) by (done || lia).
    cbn [mbind option_bind]. destruct (N.eqb_spec (bh (nth_band bw j s)) 0) as [E|]; [by apply Hbefore in E|by eexists]. }
  rewrite Hsplit in E. rewrite E. cbn [fst snd]. split; [done|]. split; [done|].
  intros j b0 Hj. cbn [bands set_bands].
  assert (Hlen : length l1 = i).
  { apply Forall2_length in HF. rewrite take_length in HF. apply lookup_lt_Some in Hb. lia. }
  case_decide as Hji.
  - rewrite lookup_app_l by lia.
    destruct (Forall2_lookup_l _ _ _ j b0 HF) as (b' & Hb' & E'); [by rewrite lookup_take|]. rewrite Hb'.
    rewrite <- E'. apply insert_same. rewrite (key_at j) by (done || lia). intros [= E0]. by apply (Hbefore j Hji).
  - rewrite lookup_app_r by lia. rewrite Hlen. rewrite <- Hj. rewrite <- Hsplit at 2.
    rewrite lookup_app_r by (rewrite take_length; lia). do 2 f_equal. rewrite take_length. apply lookup_lt_Some in Hb. lia.
Qed.

(** A bulk insertion with such a band anywhere panics and leaves the id map alone. *)
Theorem C85_bulk (sched : list nat) (ps : list (Id * list T)) :
  (Forall (nonzero nb bw bh) ps.*2 -> dst m (ParBulkInsertPairs sched ps) = st m (ParBulkInsertPairs sched ps)) /\
  (forall p i, p ∈ ps -> i < nb -> nb * bw <= length p.2 -> bh (nth_band bw i p.2) = 0%N ->
    (dst m (ParBulkInsertPairs sched ps)).2 = OPanic /\
    id_signatures (dst m (ParBulkInsertPairs sched ps)).1 = id_signatures m).
Proof.
  split.
  { intros Hs. apply (step_same K bh eager nb bw); [exact framed_m|]. eapply Forall_impl; [exact Hs|]. exact nonzero_live. }
  intros p i Hp Hi Hl Hz. destruct (band_there i Hi) as [b Hb]. cbn [dstep]. unfold dpar_bulk_insert_pairs. cbv zeta.
  destruct (par_for_each _ _ _ _).2 eqn:E; [done|]. exfalso. rewrite par_for_each_panic in E.
  assert (E' : (seq_loop (fun p => dband_insert K bh p.1 p.2) ps b).2 = false).
  { apply not_true_iff_false. intros E1. apply not_true_iff_false in E. apply E. apply existsb_exists. exists b.
    split; [by eapply elem_of_list_In, elem_of_list_lookup_2|done]. }
  destruct (loop_items K (fun p : Id * list T => dband_insert K bh p.1 p.2) ps
    (fun p b0 b0' => dinsert_bounds K bh b0 p.1 p.2 b0') b E' p Hp) as (b1 & b2 & E1 & E2).
  unfold bounds in E1. injection E1 as E3 E4. unfold dband_insert in E2.
  assert (Ek : band_key K bh b1 p.2 = band_key K bh b p.2) by (unfold band_key; by rewrite E3, E4).
  rewrite Ek, (key_at i) in E2 by done. cbn [mbind option_bind] in E2. by rewrite Hz in E2.
Qed.

(** Removals never meet the assertion: a stored signature has no such band. *)
Theorem C85_removals (id : Id) (sched : list nat) (ids : list Id) :
  dst m (Remove id) = st m (Remove id) /\ dst m (BulkRemove sched ids) = st m (BulkRemove sched ids).
Proof.
  split; [exact (remove_step_same K bh eager nb bw m id framed_m)|exact (bulk_remove_same K bh eager nb bw m sched ids framed_m)].
Qed.

(** A query panics when one of its bands hashes to 0, unless the table of that band is empty and the
    lookup skips the hash; otherwise it answers as without the assertion. *)
Theorem C85_queries (order : gset Id -> list Id) (sort sort' : list (Id * f64) -> list (Id * f64)) (n : nat) (q : list T) :
  length q = nb * bw ->
  ((exists i b, bands m !! i = Some b /\ bh (nth_band bw i q) = 0%N /\ (eager = true \/ hash_table b ≠ ∅)) ->
    dquery K bh eager m q = Panic /\ dquery_one K bh eager order m q = Panic /\
    dquery_owned_return_similarity K bh eager order sort m q = Panic /\ dquery_top_k K bh eager order sort' m q n = Panic) /\
  ((forall i b, bands m !! i = Some b -> bh (nth_band bw i q) = 0%N -> eager = false /\ hash_table b = ∅) ->
    dquery K bh eager m q = query K bh m q /\ dquery_one K bh eager order m q = query_one K bh order m q /\
    dquery_owned_return_similarity K bh eager order sort m q = query_owned_return_similarity K bh order sort m q /\
    dquery_top_k K bh eager order sort' m q n = query_top_k K bh order sort' m q n).
Proof.
  intros Hl. split.
  - intros (i & b & Hb & Hz & Hc).
    assert (E : dcandidates K bh eager m q = None).
    { apply candidates_caught. exists b. split; [by eapply elem_of_list_lookup_2|]. split; [|done].
      rewrite (key_at i) by (done || lia). by rewrite Hz. }
    unfold dquery, dquery_one, dquery_owned_return_similarity, dquery_top_k. rewrite E.
    split; [by case_decide|]. split; [by case_decide|]. done.
  - intros Hfree.
    assert (E : dcandidates K bh eager m q = candidates K bh m q).
    { apply candidates_free. intros (b & Hb & Hk & Hc). apply elem_of_list_lookup in Hb as [i Hb].
      rewrite (key_at i) in Hk by (done || lia). injection Hk as Hk. destruct (Hfree i b Hb Hk) as [-> Ht]. by destruct Hc. }
    unfold dquery, dquery_one, dquery_owned_return_similarity, dquery_top_k. rewrite E. done.
Qed.
End Props.
Print Assumptions C85_same.
Print Assumptions C85_insert.
Print Assumptions C85_bulk.
Print Assumptions C85_removals.
Print Assumptions C85_queries.

(** A panic caught during an insertion is not without effect: the id is a candidate for ever, it cannot
    be removed, and the queries that look up its signature panic. *)
Theorem C85_caught_refuted : exists (bh : list N -> N) (id : N) (s q : list N),
  let m0 := new_index (container KHashSet N) 2 1 f64_one in
  let r := dstep (container KHashSet N) bh false m0 (Insert id s) in
  r.2 = OPanic /\ id_signatures r.1 = ∅ /\ elements <$> candidates (container KHashSet N) bh r.1 q = Some [id] /\
  dstep (container KHashSet N) bh false r.1 (Remove id) = (r.1, OSig None) /\
  elements <$> dquery (container KHashSet N) bh false m0 q = Some [] /\
  forall order sort, is_order order ->
    dquery_owned_return_similarity (container KHashSet N) bh false order sort r.1 q = None /\
    dquery_owned_return_similarity (container KHashSet N) bh false order sort m0 q = Some (sort []).
Proof.
  exists (fun l => hd 0%N l), 1%N, [5; 0]%N, [5; 7]%N. cbv zeta.
  split; [vm_compute; reflexivity|]. split; [vm_compute; reflexivity|].
  assert (E : elements <$> candidates (container KHashSet N) (fun l => hd 0%N l)
    (dstep (container KHashSet N) (fun l => hd 0%N l) false (new_index (container KHashSet N) 2 1 f64_one) (Insert 1%N [5; 0]%N)).1 [5; 7]%N
    = Some [1%N]) by (vm_compute; reflexivity).
  split; [exact E|]. split; [vm_compute; reflexivity|]. split; [vm_compute; reflexivity|].
  intros order sort Hord. split.
  - unfold dquery_owned_return_similarity. rewrite candidates_free.
    + apply fmap_Some in E as (cs & -> & E). cbn [mbind option_bind].
      assert (Ho : order cs = [1%N]).
      { apply Permutation_singleton_r. rewrite (Hord cs). by rewrite <- E. }
      rewrite Ho. vm_compute. reflexivity.
    + intros (b & Hb & Hk & _). apply elem_of_list_lookup in Hb as [i Hb]. unfold band_key in Hk.
      destruct i as [|[|i]]; vm_compute in Hb; [injection Hb as <-; vm_compute in Hk; discriminate Hk..|discriminate Hb].
  - unfold dquery_owned_return_similarity.
    assert (E0 : elements <$> dcandidates (container KHashSet N) (fun l => hd 0%N l) false (new_index (container KHashSet N) 2 1 f64_one) [5; 7]%N = Some [])
      by (vm_compute; reflexivity).
    apply fmap_Some in E0 as (cs & -> & E0). cbn [mbind option_bind].
    assert (Ho : order cs = []).
    { apply Permutation_nil_r. rewrite (Hord cs). by rewrite <- E0. }
    rewrite Ho. reflexivity.
Qed.
Print Assumptions C85_caught_refuted.

(** ** Concrete cases *)
(** Two bands of one hash, the band hash the identity: the signature [5, 0] is caught in its second band,
    [5, 7] is not; a lookup in an empty table may or may not hash. *)
Definition ex_bh (l : list N) : N := hd 0%N l.
Definition ex_ops : list (op N N) := [Insert 1%N [5; 0]%N; Insert 2%N [5; 7]%N; Remove 1%N; Insert 3%N [0; 7]%N].
Example ex_outs : drun_out (container KVec N) ex_bh false (new_index (container KVec N) 2 1 f64_one) ex_ops
  = [OPanic; OUnit; OSig None; OPanic].
Proof. vm_compute. reflexivity. Qed.
Example ex_tables : (fun b => map_to_list (hash_table b)) <$> bands (dafter KVec ex_bh false 2 1 f64_one ex_ops)
  = [[(5%N, [1; 2]%N)]; [(7%N, [2%N])]].
Proof. vm_compute. reflexivity. Qed.
Example ex_query : elements <$> dquery (container KVec N) ex_bh false (dafter KVec ex_bh false 2 1 f64_one ex_ops) [5; 7]%N = Some [2%N] /\
  dquery (container KVec N) ex_bh false (dafter KVec ex_bh false 2 1 f64_one ex_ops) [5; 0]%N = None /\
  elements <$> dquery (container KVec N) ex_bh false (dafter (Id := N) KVec ex_bh false 2 1 f64_one []) [5; 0]%N = Some [] /\
  dquery (container KVec N) ex_bh true (dafter (Id := N) KVec ex_bh true 2 1 f64_one []) [5; 0]%N = None.
Proof. vm_compute. split_and!; reflexivity. Qed.
Example ex_nonzero : nonzero 2 1 ex_bh [5; 7]%N /\ ~ nonzero 2 1 ex_bh [5; 0]%N.
Proof.
  split; [|intros Hn; by apply (Hn 1 ltac:(lia))]. intros i Hi. destruct i as [|[|i]]; [done|done|lia].
Qed.
