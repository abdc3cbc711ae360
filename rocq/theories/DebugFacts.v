(** Builds with debug assertions: proofs (definitions in DebugBuild.v). *)
From stdpp Require Import base list gmap.
From Coq Require Import NArith Lia.
From Verif Require Import Base Par ParFacts Float Similarity Container MinHashIndex SpecIndex ListFacts DebugBuild.

(** ** Loops with bodies that agree *)
Section Loops.
Context {S I : Type} (f g : I -> S -> option S) (P : S -> Prop) (items : list I).
Hypothesis Hfg : forall x s, x ∈ items -> P s -> f x s = g x s.
Hypothesis Hpres : forall x s s', x ∈ items -> P s -> g x s = Some s' -> P s'.

Definition good (t : task S I) : Prop := P (t_state t) /\ Forall (fun x => x ∈ items) (t_todo t).

Lemma step_agree t : good t -> task_step f t = task_step g t /\ good (task_step g t).
Proof.
  intros [Hp Ht]. unfold task_step, good. destruct (t_dead t); [done|]. destruct (t_todo t) as [|x rest] eqn:Et; [rewrite Et; auto|].
  apply Forall_cons in Ht as [Hx Ht]. rewrite Hfg by done.
  destruct (g x (t_state t)) as [s'|] eqn:E; (split; [done|]); cbn; [split; [exact (Hpres _ _ _ Hx Hp E)|exact Ht]|split; [exact Hp|exact Ht]].
Qed.

Lemma steps_agree sched ts : Forall good ts -> par_steps f sched ts = par_steps g sched ts /\ Forall good (par_steps g sched ts).
Proof.
  unfold par_steps. revert ts. induction sched as [|i sched IH]; intros ts Hg; cbn [fold_left]; [done|].
  assert (E : alter (task_step f) i ts = alter (task_step g) i ts).
  { apply list_eq. intros j. destruct (decide (i = j)) as [->|Hne]; [|by rewrite !list_lookup_alter_ne].
    rewrite !list_lookup_alter. destruct (ts !! j) as [t|] eqn:Et; [|done]. cbn.
    rewrite Forall_lookup in Hg. by rewrite (proj1 (step_agree t (Hg _ _ Et))). }
  rewrite E. apply IH. apply Forall_lookup. intros j t Ht. destruct (decide (i = j)) as [->|Hne].
  - rewrite list_lookup_alter in Ht. apply fmap_Some in Ht as (t0 & Ht & ->). rewrite Forall_lookup in Hg. apply step_agree; eauto.
  - rewrite list_lookup_alter_ne in Ht by done. rewrite Forall_lookup in Hg. eauto.
Qed.

Lemma loop_agree l s : Forall (fun x => x ∈ items) l -> P s -> seq_loop f l s = seq_loop g l s.
Proof.
  revert s. induction l as [|x l IH]; intros s Hl Hs; [done|]. cbn [seq_loop]. apply Forall_cons in Hl as [Hx Hl].
  rewrite Hfg by done. destruct (g x s) as [s'|] eqn:E; [|done]. apply IH; [done|]. exact (Hpres _ _ _ Hx Hs E).
Qed.

Lemma par_agree sched states : Forall P states -> par_for_each f sched items states = par_for_each g sched items states.
Proof.
  intros HP. unfold par_for_each.
  assert (Hg : Forall good ((fun s => Task s items false) <$> states)).
  { apply Forall_fmap. eapply Forall_impl; [exact HP|]. intros s Hs. split; [done|]. apply Forall_forall. done. }
  destruct (steps_agree sched _ Hg) as [-> Hg']. cbv zeta. destruct (existsb t_dead _); [done|].
  assert (E : task_finish f <$> par_steps g sched ((fun s => Task s items false) <$> states) =
              task_finish g <$> par_steps g sched ((fun s => Task s items false) <$> states)); [|by rewrite E].
  apply list_fmap_ext. intros i t Ht. rewrite Forall_lookup in Hg'. destruct (Hg' _ _ Ht) as [Hp Hl].
  unfold task_finish. destruct (t_dead t); [done|]. by apply loop_agree.
Qed.
End Loops.

Lemma for_each_agree {S} (f g : S -> option S) l : (forall s, s ∈ l -> f s = g s) -> for_each_mut f l = for_each_mut g l.
Proof.
  induction l as [|s l IH]; intros H; [done|]. cbn [for_each_mut]. rewrite H by left.
  destruct (g s); [|done]. rewrite IH; [done|]. intros t Ht. apply H. by right.
Qed.

Lemma for_each_rel {S} (R : S -> S -> Prop) (f : S -> option S) l : (forall s, R s s) ->
  (forall s s', f s = Some s' -> R s s') -> Forall2 R l (for_each_mut f l).1.
Proof.
  intros Hr Hf. induction l as [|s l IH]; [constructor|]. cbn [for_each_mut]. destruct (f s) as [s'|] eqn:E; cbn.
  - constructor; auto.
  - constructor; [done|]. clear IH. induction l; constructor; auto.
Qed.

Lemma par_rel {S I} (R : S -> S -> Prop) (f : I -> S -> option S) sched items l : (forall s, R s s) ->
  (forall s t u, R s t -> R t u -> R s u) ->
  (forall x s s', f x s = Some s' -> R s s') -> Forall2 R l (par_for_each f sched items l).1.
Proof.
  intros Hr Ht Hf. eapply Forall2_impl; [apply par_for_each_prefix|]. intros s s' [k ->].
  generalize (take k items). intros xs. revert s. induction xs as [|x xs IH]; intros s; cbn [seq_loop]; [apply Hr|].
  destruct (f x s) as [s1|] eqn:E; [|apply Hr]. eapply Ht; [by eapply Hf|apply IH].
Qed.

Lemma for_each_ok {S} (f : S -> option S) l : (for_each_mut f l).2 = false -> forall s, s ∈ l -> is_Some (f s).
Proof.
  induction l as [|s l IH]; intros E t Ht; [by apply elem_of_nil in Ht|]. cbn [for_each_mut] in E.
  destruct (f s) as [s'|] eqn:Es; cbn in E; [|done]. apply elem_of_cons in Ht as [->|Ht]; [by rewrite Es|by apply IH].
Qed.

Lemma for_each_stop {S} (f : S -> option S) l1 s l2 : f s = None -> (forall t, t ∈ l1 -> is_Some (f t)) ->
  exists l1', for_each_mut f (l1 ++ s :: l2) = (l1' ++ s :: l2, true) /\ Forall2 (fun t t' => f t = Some t') l1 l1'.
Proof.
  intros Hs. induction l1 as [|t l1 IH]; intros H; cbn [app for_each_mut].
  { rewrite Hs. exists []. done. }
  destruct (H t ltac:(left)) as [t' Et]. rewrite Et.
  destruct IH as (l1' & -> & HF); [intros u Hu; apply H; by right|]. exists (t' :: l1'). split; [done|]. by constructor.
Qed.

Section Debug.
Context {T : Type} `{!EqDecision T}.
Context {Id : Type} `{Countable Id}.
Context (K : id_container Id) (bh : list T -> N) (eager : bool) (nb bw : nat).
Notation band := (band (carrier K)).
Notation index := (index (carrier K) Id T).

Definition bounds (b : band) : nat * nat := (band_start b, band_end b).
Definition frame : list (nat * nat) := (fun i => (i * bw, (i + 1) * bw)) <$> seq 0 nb.
(** No band of the signature that can be cut out has the hash 0. *)
Definition live (s : list T) : Prop := forall p, p ∈ frame -> bh <$> slice s p.1 p.2 ≠ Some 0%N.
Record framed (m : index) : Prop := {
  fr_bounds : bounds <$> bands m = frame;
  fr_num : num_hashes m = nb * bw;
  fr_live : forall id s, id_signatures m !! id = Some s -> live s;
}.

Lemma in_frame m b : framed m -> b ∈ bands m -> bounds b ∈ frame.
Proof. intros [<- _ _] Hb. by apply elem_of_list_fmap_1. Qed.

Lemma live_key m b s : framed m -> b ∈ bands m -> live s -> band_key K bh b s ≠ Some 0%N.
Proof. intros Hm Hb Hs. exact (Hs _ (in_frame m b Hm Hb)). Qed.

Lemma insert_same b id s : band_key K bh b s ≠ Some 0%N -> dband_insert K bh id s b = band_insert K bh id s b.
Proof.
  unfold dband_insert, band_insert. destruct (band_key K bh b s) as [k|]; [|done]. cbn [mbind option_bind]. intros Hk.
  destruct (N.eqb_spec k 0); [congruence|done].
Qed.
Lemma get_same b k : k ≠ 0%N -> dget K eager b k = Some (hash_table b !! k).
Proof. intros Hk. unfold dget. destruct (N.eqb_spec k 0); [done|done]. Qed.
Lemma query_same b s : band_key K bh b s ≠ Some 0%N -> dband_query K bh eager s b = band_query K bh s b.
Proof.
  unfold dband_query, band_query. destruct (band_key K bh b s) as [k|]; [|done]. cbn [mbind option_bind]. intros Hk.
  by rewrite get_same by congruence.
Qed.
Lemma remove_same b id s : band_key K bh b s ≠ Some 0%N -> dband_remove K bh eager id s b = band_remove K bh id s b.
Proof.
  unfold dband_remove, band_remove. destruct (band_key K bh b s) as [k|]; [|done]. cbn [mbind option_bind]. intros Hk.
  by rewrite get_same by congruence.
Qed.

Lemma insert_bounds b id s b' : band_insert K bh id s b = Some b' -> bounds b' = bounds b.
Proof. unfold band_insert. destruct (band_key K bh b s); [|done]. by intros [= <-]. Qed.
Lemma dinsert_bounds b id s b' : dband_insert K bh id s b = Some b' -> bounds b' = bounds b.
Proof. unfold dband_insert. destruct (band_key K bh b s); [|done]. cbn. destruct (_ =? _)%N; [done|]. by intros [= <-]. Qed.
Lemma remove_bounds b id s b' : band_remove K bh id s b = Some b' -> bounds b' = bounds b.
Proof. unfold band_remove. destruct (band_key K bh b s); [|done]. cbn. destruct (_ !! _); by intros [= <-]. Qed.
Lemma dremove_bounds b id s b' : dband_remove K bh eager id s b = Some b' -> bounds b' = bounds b.
Proof.
  unfold dband_remove. destruct (band_key K bh b s); [|done]. cbn. destruct (dget _ _ _ _) as [o|]; [|done]. cbn.
  destruct o; by intros [= <-].
Qed.

Lemma bounds_rel (bs bs' : list band) : Forall2 (fun b b' => bounds b' = bounds b) bs bs' -> bounds <$> bs' = bounds <$> bs.
Proof. induction 1 as [|b b' bs bs' E _ IH]; [done|]. cbn. by rewrite E, IH. Qed.
Lemma each_bounds (f : band -> option band) bs : (forall b b', f b = Some b' -> bounds b' = bounds b) ->
  bounds <$> (for_each_mut f bs).1 = bounds <$> bs.
Proof. intros Hf. apply bounds_rel, for_each_rel; auto. Qed.
Lemma par_bounds {I} (f : I -> band -> option band) sched items bs : (forall x b b', f x b = Some b' -> bounds b' = bounds b) ->
  bounds <$> (par_for_each f sched items bs).1 = bounds <$> bs.
Proof. intros Hf. apply bounds_rel, par_rel; [done| |done]. intros s t u -> ->. done. Qed.

Lemma set_bands_framed m bs : framed m -> bounds <$> bs = bounds <$> bands m -> framed (set_bands K bs m).
Proof. intros [H1 H2 H3] E. split; cbn; [by rewrite E|done|done]. Qed.
Lemma set_sigs_framed m sg : framed m -> (forall id s, sg !! id = Some s -> live s) -> framed (set_sigs K sg m).
Proof. intros [H1 H2 H3] E. split; cbn; done. Qed.

Lemma insert_all_live ps (sg : gmap Id (list T)) : (forall id s, sg !! id = Some s -> live s) -> Forall (fun p : Id * list T => live p.2) ps ->
  forall id s, insert_all ps sg !! id = Some s -> live s.
Proof.
  unfold insert_all. revert sg. induction ps as [|[id0 s0] ps IH]; intros sg Hsg Hps id s; cbn [fold_left]; [apply Hsg|].
  apply Forall_cons in Hps as [H0 Hps]. apply IH; [|done]. intros id1 s1. cbn [fst snd].
  destruct (decide (id0 = id1)) as [->|Hne]; [rewrite lookup_insert; by intros [= <-]|]. rewrite lookup_insert_ne by done. apply Hsg.
Qed.

Lemma remove_all_live (ids : list Id) (sg : gmap Id (list T)) : (forall id s, sg !! id = Some s -> live s) ->
  (forall id s, (remove_all ids sg).1 !! id = Some s -> live s) /\ Forall live (remove_all ids sg).2.
Proof.
  revert sg. induction ids as [|i ids IH]; intros sg Hsg; cbn [remove_all]; [split; [exact Hsg|constructor]|].
  destruct (sg !! i) as [s0|] eqn:E; [|by apply IH]. cbn [fst snd].
  destruct (IH (delete i sg)) as [H1 H2].
  { intros id s [_ Hs]%lookup_delete_Some. eauto. }
  split; [done|]. constructor; [by eapply Hsg|done].
Qed.

(** The signatures a call gives to the index. *)
Definition sigs_of (o : op Id T) : list (list T) :=
  match o with
  | Insert _ s => [s]
  | ParBulkInsert _ ids sigs => (zip ids sigs).*2
  | ParBulkInsertPairs _ ps => ps.*2
  | _ => []
  end.

Lemma pairs_same m sched ps : framed m -> Forall (fun p : Id * list T => live p.2) ps ->
  dpar_bulk_insert_pairs K bh sched ps m = par_bulk_insert_pairs K bh sched ps m.
Proof.
  intros Hm Hps. unfold dpar_bulk_insert_pairs, par_bulk_insert_pairs.
  rewrite (par_agree (fun p => dband_insert K bh p.1 p.2) (bulk_body K bh) (fun b => bounds b ∈ frame) ps); [done| | |].
  - intros p b Hp Hb. apply insert_same. rewrite Forall_forall in Hps. exact (Hps _ Hp _ Hb).
  - intros p b b' _ Hb E. unfold bulk_body in E. by rewrite (insert_bounds _ _ _ _ E).
  - apply Forall_forall. intros b Hb. by apply (in_frame m).
Qed.

Lemma removes_same m sched (ps : list (list T * Id)) : framed m -> Forall (fun p => live p.1) ps ->
  par_for_each (fun p => dband_remove K bh eager p.2 p.1) sched ps (bands m) =
  par_for_each (bulk_remove_body K bh) sched ps (bands m).
Proof.
  intros Hm Hps. apply (par_agree _ _ (fun b => bounds b ∈ frame)).
  - intros p b Hp Hb. apply remove_same. rewrite Forall_forall in Hps. exact (Hps _ Hp _ Hb).
  - intros p b b' _ Hb E. unfold bulk_remove_body in E. by rewrite (remove_bounds _ _ _ _ E).
  - apply Forall_forall. intros b Hb. by apply (in_frame m).
Qed.

Lemma zip_live (l : list (list T)) (ids : list Id) : Forall live l -> Forall (fun p => live p.1) (zip l ids).
Proof.
  revert ids. induction l as [|s l IH]; intros ids Hl; [constructor|]. destruct ids; [constructor|].
  apply Forall_cons in Hl as [Hs Hl]. cbn [zip zip_with]. constructor; [done|by apply IH].
Qed.

Lemma remove_step_same m id : framed m -> dremove K bh eager id m = remove K bh id m.
Proof.
  intros Hm. unfold dremove, remove. destruct (id_signatures m !! id) as [s|] eqn:E; [|done]. cbv zeta. cbn [bands set_sigs].
  rewrite (for_each_agree (dband_remove K bh eager id s) (band_remove K bh id s)); [done|].
  intros b Hb. apply remove_same. eapply live_key; [done|done|]. by eapply fr_live.
Qed.
Lemma bulk_remove_same m sched ids : framed m -> dbulk_remove K bh eager sched ids m = bulk_remove K bh sched ids m.
Proof.
  intros Hm. unfold dbulk_remove, bulk_remove. cbv zeta. cbn [bands set_sigs].
  rewrite removes_same; [done|done|]. apply zip_live. apply remove_all_live, Hm.
Qed.

Lemma step_same m o : framed m -> Forall live (sigs_of o) -> dstep K bh eager m o = step K bh m o.
Proof.
  intros Hm Ho. destruct o as [id s|sched ids sigs|sched ps|id|sched ids| | |cap mc]; cbn [dstep step sigs_of] in *; try done.
  - apply Forall_cons in Ho as [Hs _]. unfold dinsert, insert. case_decide; [|done].
    rewrite (for_each_agree (dband_insert K bh id s) (band_insert K bh id s)); [done|].
    intros b Hb. apply insert_same. by eapply live_key.
  - apply (Forall_fmap snd) in Ho. unfold dpar_bulk_insert, par_bulk_insert. destruct sigs as [|s0 sigs]; [apply pairs_same; [exact Hm|exact Ho]|].
    case_decide; [|done]. apply pairs_same; [exact Hm|exact Ho].
  - apply (Forall_fmap snd) in Ho. apply pairs_same; [exact Hm|exact Ho].
  - by apply remove_step_same.
  - by apply bulk_remove_same.
Qed.

(** A debug insertion that returns had live signatures only. *)
Lemma dinserts_live m s : framed m -> (forall b, b ∈ bands m -> exists id b1 b2, bounds b1 = bounds b /\ dband_insert K bh id s b1 = Some b2) -> live s.
Proof.
  intros Hm Hall p Hp. rewrite <- (fr_bounds m Hm) in Hp. apply elem_of_list_fmap in Hp as (b & -> & Hb).
  destruct (Hall b Hb) as (id & b1 & b2 & E1 & E2). unfold dband_insert, band_key in E2. unfold bounds in E1. injection E1 as E3 E4.
  rewrite E3, E4 in E2. cbn [bounds fst snd]. destruct (slice s (band_start b) (band_end b)) as [v|]; [|done]. cbn in E2 |- *.
  destruct (N.eqb_spec (bh v) 0); [done|congruence].
Qed.

Lemma loop_items {I} (f : I -> band -> option band) items : (forall x b b', f x b = Some b' -> bounds b' = bounds b) ->
  forall b, (seq_loop f items b).2 = false -> forall x, x ∈ items -> exists b1 b2, bounds b1 = bounds b /\ f x b1 = Some b2.
Proof.
  intros Hb. induction items as [|y items IH]; intros b E x Hx; [by apply elem_of_nil in Hx|]. cbn [seq_loop] in E.
  destruct (f y b) as [b'|] eqn:Eb; [|done]. apply elem_of_cons in Hx as [->|Hx]; [by exists b, b'|].
  destruct (IH b' E x Hx) as (b1 & b2 & E1 & E2). exists b1, b2. split; [|done]. rewrite E1. by eapply Hb.
Qed.

Lemma dpairs_framed m sched ps : framed m -> framed (dpar_bulk_insert_pairs K bh sched ps m).1.
Proof.
  intros Hm. unfold dpar_bulk_insert_pairs. cbv zeta.
  assert (Hb : framed (set_bands K (par_for_each (fun p => dband_insert K bh p.1 p.2) sched ps (bands m)).1 m)).
  { apply set_bands_framed; [done|]. apply par_bounds. intros p b b'. apply dinsert_bounds. }
  destruct (par_for_each _ _ _ _).2 eqn:E; cbn [fst]; [done|]. apply set_sigs_framed; [done|].
  apply insert_all_live; [apply Hm|]. apply Forall_forall. intros [id s] Hp. apply (dinserts_live m); [done|].
  intros b Hbm. rewrite par_for_each_panic in E.
  assert (E' : (seq_loop (fun p => dband_insert K bh p.1 p.2) ps b).2 = false).
  { apply not_true_iff_false. intros E1. apply not_true_iff_false in E. apply E. apply existsb_exists. exists b.
    split; [by apply elem_of_list_In|done]. }
  destruct (loop_items (fun p : Id * list T => dband_insert K bh p.1 p.2) ps (fun p b0 b0' => dinsert_bounds b0 p.1 p.2 b0') b E' _ Hp)
    as (b1 & b2 & E1 & E2).
  by exists id, b1, b2.
Qed.

Lemma dstep_framed m o : framed m -> framed (dstep K bh eager m o).1.
Proof.
  intros Hm. destruct o as [id s|sched ids sigs|sched ps|id|sched ids| | |cap mc]; cbn [dstep].
  - unfold dinsert. case_decide; [|done]. cbv zeta.
    assert (Hb : framed (set_bands K (for_each_mut (dband_insert K bh id s) (bands m)).1 m)).
    { apply set_bands_framed; [done|]. apply each_bounds. intros b b'. apply dinsert_bounds. }
    destruct (for_each_mut _ _).2 eqn:E; cbn [fst]; [done|]. apply set_sigs_framed; [done|].
    assert (Hs : live s).
    { apply (dinserts_live m); [done|]. intros b Hbm. destruct (for_each_ok _ _ E b Hbm) as [b' E']. by exists id, b, b'. }
    cbn. intros id' s'. destruct (decide (id = id')) as [->|Hne]; [rewrite lookup_insert; by intros [= <-]|].
    rewrite lookup_insert_ne by done. apply Hm.
  - unfold dpar_bulk_insert. destruct sigs as [|s0 sigs]; [by apply dpairs_framed|].
    case_decide; [by apply dpairs_framed|done].
  - by apply dpairs_framed.
  - unfold dremove. destruct (id_signatures m !! id) as [s|] eqn:E; [|done]. cbv zeta. cbn [fst].
    apply set_bands_framed; [|apply each_bounds; intros b b'; apply dremove_bounds].
    apply set_sigs_framed; [done|]. intros id' s' [_ Hs]%lookup_delete_Some. by eapply fr_live.
  - unfold dbulk_remove. cbv zeta. cbn [fst].
    apply set_bands_framed; [|apply par_bounds; intros p b b'; apply dremove_bounds].
    apply set_sigs_framed; [done|]. apply remove_all_live, Hm.
  - cbn [fst]. apply set_sigs_framed; [|intros id s; by rewrite lookup_empty].
    apply set_bands_framed; [done|]. rewrite <- list_fmap_compose. done.
  - done.
  - unfold shrink_to. repeat case_match; done.
Qed.

Lemma new_framed th : framed (new_index K nb bw th).
Proof. split; cbn; [by rewrite <- list_fmap_compose|done|intros id s; by rewrite lookup_empty]. Qed.

Lemma drun_framed m ops : framed m -> framed (drun K bh eager m ops).
Proof. unfold drun. revert m. induction ops as [|o ops IH]; intros m Hm; cbn [fold_left]; [done|]. by apply IH, dstep_framed. Qed.

Lemma runs_same m ops : framed m -> Forall live (ops ≫= sigs_of) ->
  drun K bh eager m ops = run K bh m ops /\ drun_out K bh eager m ops = run_out K bh m ops.
Proof.
  unfold drun, run. revert m. induction ops as [|o ops IH]; intros m Hm Hl; cbn [fold_left drun_out run_out]; [done|].
  cbn in Hl. apply Forall_app in Hl as [Ho Hl]. pose proof (step_same m o Hm Ho) as E.
  destruct (IH (dstep K bh eager m o).1) as [E1 E2]; [by apply dstep_framed|done|]. rewrite E in *. by rewrite E1, E2.
Qed.

(** *** Queries *)
(** A band whose key is 0 and is hashed. *)
Definition caught (m : index) (q : list T) : Prop :=
  exists b, b ∈ bands m /\ band_key K bh b q = Some 0%N /\ (eager = true \/ hash_table b ≠ ∅).

Lemma query_free b q : ~ (band_key K bh b q = Some 0%N /\ (eager = true \/ hash_table b ≠ ∅)) ->
  dband_query K bh eager q b = band_query K bh q b.
Proof.
  unfold dband_query, band_query. destruct (band_key K bh b q) as [k|]; [|done]. cbn [mbind option_bind]. intros Hn.
  unfold dget. destruct (N.eqb_spec k 0) as [->|]; [|done]. cbn [andb].
  destruct eager; [exfalso; apply Hn; auto|]. cbn [orb]. case_bool_decide; [done|]. exfalso. apply Hn. auto.
Qed.
Lemma query_caught b q : band_key K bh b q = Some 0%N -> (eager = true \/ hash_table b ≠ ∅) -> dband_query K bh eager q b = None.
Proof.
  intros E Hc. unfold dband_query. rewrite E. cbn [mbind option_bind]. unfold dget. cbn [N.eqb].
  destruct Hc as [->|Hne]; [done|]. rewrite bool_decide_false by done. cbn [negb]. by rewrite orb_true_r.
Qed.

Lemma candidates_free m q : ~ caught m q -> dcandidates K bh eager m q = candidates K bh m q.
Proof.
  intros Hn. unfold dcandidates, candidates. f_equal. unfold caught in Hn.
  induction (bands m) as [|b bs IH]; [done|]. cbn [mapM]. rewrite query_free.
  - destruct (band_query K bh q b); [|done]. cbn. rewrite IH; [done|]. intros (b' & Hb & Hr). apply Hn. exists b'. split; [by right|done].
  - intros Hr. apply Hn. exists b. split; [left|done].
Qed.
Lemma candidates_caught m q : caught m q -> dcandidates K bh eager m q = None.
Proof.
  intros (b & Hb & E & Hc). unfold dcandidates.
  assert (Hm : mapM (dband_query K bh eager q) (bands m) = None); [|by rewrite Hm].
  apply mapM_None. apply Exists_exists. exists b. split; [done|]. by apply query_caught.
Qed.
End Debug.
