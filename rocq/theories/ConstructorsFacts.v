(** Proofs about the constructors with machine arithmetic (C88). *)
From stdpp Require Import base list gmap.
From Coq Require Import NArith ZArith Lia.
From Verif Require Import Base Par Float Similarity Container MinHashIndex Constructors ParFacts.
Local Open Scope nat_scope.

Section Facts.
Context (W : nat).
Context {T : Type} `{!EqDecision T}.
Context {Id : Type} `{Countable Id}.
Context (K : id_container Id).
Context (bh : list T -> N).

Lemma nth_band_c_ok bw i nb : 0 < bw -> i < nb -> nb * bw < 2 ^ W ->
  nth_band_c W K bw i = Some (band_new K (i * bw) ((i + 1) * bw)).
Proof.
  intros Hb Hi Hl. unfold nth_band_c, mul_c, add_c, band_new_c.
  assert ((i + 1) * bw <= nb * bw) by nia. assert (i * bw <= (i + 1) * bw) by nia.
  assert (i + 1 <= (i + 1) * bw) by nia.
  rewrite decide_True by lia. cbn. rewrite decide_True by lia. cbn.
  rewrite decide_True by lia. cbn. by rewrite decide_True by lia.
Qed.

Lemma nth_band_c_zero i nb : i < nb -> nb < 2 ^ W ->
  nth_band_c W K 0 i = Some (band_new K (i * 0) ((i + 1) * 0)).
Proof.
  intros Hi Hl. unfold nth_band_c, mul_c, add_c, band_new_c.
  rewrite !Nat.mul_0_r. rewrite decide_True by lia. cbn. rewrite decide_True by lia. cbn.
  rewrite Nat.mul_0_r. rewrite decide_True by lia. cbn. by rewrite decide_True by lia.
Qed.

Lemma nth_band_c_all bw i nb : i < nb -> nb < 2 ^ W -> nb * bw < 2 ^ W ->
  nth_band_c W K bw i = Some (band_new K (i * bw) ((i + 1) * bw)).
Proof.
  intros Hi Hn Hl. destruct (decide (bw = 0)) as [->|Hb].
  - by eapply nth_band_c_zero.
  - apply nth_band_c_ok with nb; lia.
Qed.

Lemma bands_c bw nb n : n <= nb -> nb < 2 ^ W -> nb * bw < 2 ^ W ->
  mapM (nth_band_c W K bw) (seq 0 n) =
  Some ((fun i => band_new K (i * bw) ((i + 1) * bw)) <$> seq 0 n).
Proof.
  intros Hn Hw Hl. apply mapM_Some. apply Forall2_fmap_r, Forall_Forall2_diag, Forall_forall.
  intros i [_ Hi]%elem_of_seq. apply nth_band_c_all with nb; lia.
Qed.

Lemma new_index_c_spec nb bw th : nb < 2 ^ W ->
  new_index_c W K nb bw th =
  if decide (nb * bw < 2 ^ W) then Some (new_index (T := T) K nb bw th) else None.
Proof.
  intros Hn. unfold new_index_c. destruct (decide _) as [Hl|Hl].
  - rewrite (bands_c bw nb nb) by lia. cbn. unfold mul_c. by rewrite decide_True by lia.
  - unfold mul_c. rewrite decide_False by lia. cbn.
    by destruct (mapM _ _).
Qed.

Lemma new_index_u_spec nb bw th : nb < 2 ^ W -> nb * bw < 2 ^ W ->
  new_index_u W K nb bw th = new_index (T := T) K nb bw th.
Proof.
  intros Hn Hl. unfold new_index_u, new_index. f_equal; [|by rewrite Nat.mod_small].
  apply list_fmap_ext. intros j i Hi. apply elem_of_list_lookup_2, elem_of_seq in Hi.
  assert (i * bw <= nb * bw) by nia. assert ((i + 1) * bw <= nb * bw) by nia.
  rewrite (Nat.mod_small (i + 1)) by lia. by rewrite !Nat.mod_small by lia.
Qed.

(** An index with a band that ends before it starts, and with no stored signature. *)
Definition broken (m : index (carrier K) Id T) : Prop :=
  id_signatures m = ∅ /\ exists b, b ∈ bands m /\ band_end b < band_start b.

Lemma wrapped_band nb bw : nb < 2 ^ W -> bw < 2 ^ W -> 2 ^ W <= nb * bw ->
  exists i, i < nb /\ ((i + 1) mod 2 ^ W) * bw mod 2 ^ W < i * bw mod 2 ^ W.
Proof.
  intros Hn Hb Hl. generalize dependent (2 ^ W). intros M Hn Hb Hl.
  exists ((M - 1) / bw). set (i := (M - 1) / bw).
  assert (Hbw : bw <> 0) by nia.
  pose proof (Nat.div_mod (M - 1) bw Hbw) as Hd. pose proof (Nat.mod_upper_bound (M - 1) bw Hbw) as Hr.
  fold i in Hd. clearbody i. generalize dependent ((M - 1) mod bw). intros r Hd Hr.
  assert (i < nb) by nia. split; [done|].
  rewrite (Nat.mod_small (i + 1)) by lia.
  rewrite (Nat.mod_small (i * bw)) by nia.
  replace ((i + 1) * bw) with (((i + 1) * bw - M) + 1 * M) by nia.
  rewrite Nat.mod_add by lia. rewrite Nat.mod_small by nia. nia.
Qed.

Lemma new_index_u_broken nb bw th : nb < 2 ^ W -> bw < 2 ^ W -> 2 ^ W <= nb * bw ->
  broken (new_index_u W K nb bw th).
Proof.
  intros Hn Hb Hl. split; [done|]. destruct (wrapped_band nb bw Hn Hb Hl) as (i & Hi & Hlt).
  exists (band_new K (i * bw mod 2 ^ W) (((i + 1) mod 2 ^ W) * bw mod 2 ^ W)). split; [|done].
  cbn. apply elem_of_list_fmap. exists i. split; [done|]. apply elem_of_seq. lia.
Qed.

Lemma broken_key b (q : list T) : band_end b < band_start b -> band_key K bh b q = None.
Proof. intros Hb. unfold band_key, slice. by rewrite decide_False by lia. Qed.

(** The operations on a band keep its two bounds. *)
Notation bounds := (fun b : band (carrier K) => (band_start b, band_end b)).

Lemma insert_bounds id sig b b' : band_insert K bh id sig b = Some b' -> bounds b' = bounds b.
Proof. unfold band_insert. destruct (band_key _ _ _ _); cbn; [|done]. by intros [= <-]. Qed.
Lemma remove_bounds id sig b b' : band_remove K bh id sig b = Some b' -> bounds b' = bounds b.
Proof.
  unfold band_remove. destruct (band_key _ _ _ _); cbn; [|done]. intros [= <-].
  destruct (hash_table b !! _); [|done]. by destruct (ic_is_empty _ _).
Qed.

Lemma for_each_bounds f (l : list (band (carrier K))) :
  (forall b b', f b = Some b' -> bounds b' = bounds b) ->
  bounds <$> (for_each_mut f l).1 = bounds <$> l.
Proof.
  intros Hf. induction l as [|b l IH]; [done|]. cbn. destruct (f b) eqn:E; [|done].
  cbn. apply Hf in E. by rewrite E, IH.
Qed.

Lemma seq_loop_bounds {I} (f : I -> band (carrier K) -> option (band (carrier K))) items b :
  (forall x b b', f x b = Some b' -> bounds b' = bounds b) ->
  bounds (seq_loop f items b).1 = bounds b.
Proof.
  intros Hf. revert b. induction items as [|x items IH]; intros b; [done|]. cbn [seq_loop].
  destruct (f x b) eqn:E; [|done]. rewrite IH. by eapply Hf.
Qed.

Lemma par_bounds {I} (f : I -> band (carrier K) -> option (band (carrier K))) sched items l :
  (forall x b b', f x b = Some b' -> bounds b' = bounds b) ->
  bounds <$> (par_for_each f sched items l).1 = bounds <$> l.
Proof.
  intros Hf. pose proof (par_for_each_prefix f sched items l) as Hp.
  induction Hp as [|b b' l l' [k ->] _ IH]; [done|]. cbn [fmap list_fmap]. f_equal; [|exact IH].
  by apply seq_loop_bounds.
Qed.

Lemma bad_band_bounds (l l' : list (band (carrier K))) : bounds <$> l' = bounds <$> l ->
  (exists b, b ∈ l /\ band_end b < band_start b) -> exists b, b ∈ l' /\ band_end b < band_start b.
Proof.
  intros E (b & Hb & Hlt).
  assert (Hin : bounds b ∈ bounds <$> l') by (rewrite E; exact (elem_of_list_fmap_1 bounds _ _ Hb)).
  apply elem_of_list_fmap in Hin as (b' & [= E1 E2] & Hb'). exists b'. split; [done|]. lia.
Qed.

Lemma for_each_bad f (l : list (band (carrier K))) :
  (exists b, b ∈ l /\ f b = None) -> (for_each_mut f l).2 = true.
Proof.
  intros (b & Hb & Hf). induction l as [|b0 l IH]; [by apply elem_of_nil in Hb|].
  cbn. destruct (f b0) eqn:E; [|done]. cbn. apply elem_of_cons in Hb as [->|Hb]; [congruence|auto].
Qed.

Lemma insert_broken m id sig : broken m ->
  broken (insert K bh id sig m).1 /\ (insert K bh id sig m).2 = OPanic.
Proof.
  intros [Hs Hb]. unfold insert. destruct (decide _); [|done].
  rewrite for_each_bad.
  2:{ destruct Hb as (b & Hb & Hlt). exists b. split; [done|]. unfold band_insert.
      by rewrite broken_key. }
  split; [|done]. split; [done|]. cbn. eapply bad_band_bounds, Hb.
  apply for_each_bounds. intros b b'. apply insert_bounds.
Qed.

Lemma bulk_pairs_broken m sched pairs : broken m ->
  broken (par_bulk_insert_pairs K bh sched pairs m).1 /\
  (pairs <> [] -> (par_bulk_insert_pairs K bh sched pairs m).2 = OPanic).
Proof.
  intros [Hs Hb]. unfold par_bulk_insert_pairs.
  set (f := bulk_body K bh).
  assert (Hbd : bounds <$> (par_for_each f sched pairs (bands m)).1 = bounds <$> bands m).
  { apply par_bounds. intros [id sig] b b'. apply insert_bounds. }
  destruct pairs as [|p pairs].
  - split; [|done]. destruct (_.2); split; try done; cbn; by eapply bad_band_bounds.
  - assert (Hp : (par_for_each f sched (p :: pairs) (bands m)).2 = true).
    { rewrite par_for_each_panic. apply existsb_exists. destruct Hb as (b & Hb & Hlt).
      exists b. split; [by apply elem_of_list_In|]. cbn. unfold f, bulk_body, band_insert at 1.
      by rewrite broken_key. }
    rewrite Hp. split; [|done]. split; [done|]. cbn. by eapply bad_band_bounds.
Qed.

Lemma remove_all_empty ids : remove_all (T := T) (Id := Id) ids ∅ = (∅, []).
Proof. induction ids as [|id ids IH]; [done|]. cbn. by rewrite lookup_empty. Qed.

Lemma step_broken m o : broken m -> broken (step K bh m o).1.
Proof.
  intros Hm. destruct o as [id sig|sched ids sigs|sched pairs|id|sched ids| | |cap mc]; cbn [step].
  - by apply insert_broken.
  - unfold par_bulk_insert. destruct sigs as [|s0 sigs]; [by apply bulk_pairs_broken|].
    destruct (decide _); [by apply bulk_pairs_broken|done].
  - by apply bulk_pairs_broken.
  - unfold remove. destruct Hm as [Hs Hb]. rewrite Hs, lookup_empty. done.
  - unfold bulk_remove. destruct Hm as [Hs Hb]. rewrite Hs, remove_all_empty. cbn.
    split; [done|]. cbn. eapply bad_band_bounds, Hb.
    apply par_bounds. intros [sig id] b b'. apply remove_bounds.
  - destruct Hm as [Hs Hb]. split; [done|]. cbn. eapply bad_band_bounds, Hb.
    rewrite <- list_fmap_compose. done.
  - done.
  - unfold shrink_to. destruct (Nat.ltb _ _); [done|]. by destruct (forallb _ _).
Qed.

Lemma run_broken m ops : broken m -> broken (run K bh m ops).
Proof.
  revert m. induction ops as [|o ops IH]; intros m Hm; [done|]. cbn. by apply IH, step_broken.
Qed.

Lemma candidates_broken m q : broken m -> candidates K bh m q = None.
Proof.
  intros [_ (b & Hb & Hlt)]. unfold candidates.
  assert (E : mapM (band_query K bh q) (bands m) = None); [|by rewrite E].
  apply mapM_None_2, Exists_exists. exists b. split; [done|]. unfold band_query.
  by rewrite broken_key.
Qed.

(** What every call does on a broken index. *)
Lemma broken_calls m : broken m ->
  (forall id sig, (insert K bh id sig m).2 = OPanic) /\
  (forall sched ids sigs, ids <> [] -> sigs <> [] -> (par_bulk_insert K bh sched ids sigs m).2 = OPanic) /\
  (forall sched pairs, pairs <> [] -> (par_bulk_insert_pairs K bh sched pairs m).2 = OPanic) /\
  (forall q, query K bh m q = None /\ query_owned K bh m q = None) /\
  (forall order q, query_one K bh order m q = None) /\
  (forall order sort q, query_owned_return_similarity K bh order sort m q = None) /\
  (forall order sort q k, query_top_k K bh order sort m q k = None) /\
  (forall id, get_signature K m id = None).
Proof.
  intros Hm. repeat split.
  - intros id sig. by apply insert_broken.
  - intros sched ids sigs Hi Hs. unfold par_bulk_insert. destruct sigs as [|s0 sigs]; [done|].
    destruct ids as [|i ids]; [done|].
    destruct (decide _); [|done]. by apply bulk_pairs_broken.
  - intros. by apply bulk_pairs_broken.
  - unfold query. destruct (decide _); [|done]. by rewrite candidates_broken.
  - unfold query_owned. destruct (decide _); [|done]. by rewrite candidates_broken.
  - intros. unfold query_one. destruct (decide _); [|done]. by rewrite candidates_broken.
  - intros. unfold query_owned_return_similarity. by rewrite candidates_broken.
  - intros. unfold query_top_k. by rewrite candidates_broken.
  - intros id. destruct Hm as [Hs _]. unfold get_signature. by rewrite Hs, lookup_empty.
Qed.

(** [new_with_capacity] *)
Lemma new_with_capacity_c_spec room nb bw th cap ratio : nb < 2 ^ W ->
  new_with_capacity_c W K room nb bw th cap ratio =
  if decide (nb * bw < 2 ^ W /\ room cap = true /\ (nb = 0 \/ room (band_capacity W cap ratio) = true))
  then Some (new_index (T := T) K nb bw th) else None.
Proof.
  intros Hn. unfold new_with_capacity_c.
  destruct (decide (nb * bw < 2 ^ W)) as [Hl|Hl].
  2:{ rewrite (decide_False (P := _ /\ _)) by tauto.
      destruct (mapM _ _); [|done]. cbn. destruct (room cap); [|done].
      unfold mul_c. by rewrite decide_False. }
  destruct (room (band_capacity W cap ratio)) eqn:Hr.
  - assert (E : mapM (fun i => s ← mul_c W i bw; j ← add_c W i 1; e ← mul_c W j bw; band_new_c K s e) (seq 0 nb)
                = mapM (nth_band_c W K bw) (seq 0 nb)) by done.
    rewrite E, (bands_c bw nb nb) by lia. cbn. destruct (room cap).
    + unfold mul_c. rewrite decide_True by lia. cbn. by rewrite decide_True by tauto.
    + by rewrite decide_False by (intros (_ & ? & _); done).
  - destruct nb as [|nb].
    + cbn. destruct (room cap).
      * unfold mul_c. rewrite decide_True by lia. cbn. by rewrite decide_True by tauto.
      * by rewrite decide_False by (intros (_ & ? & _); done).
    + rewrite (decide_False (P := _ /\ _)) by (intros (_ & _ & [? | ?]); done).
      cbn [seq mapM]. destruct (mul_c W 0 bw); [|done]. cbn [mbind option_bind].
      destruct (add_c W 0 1) as [j|]; [|done]. cbn [mbind option_bind]. by destruct (mul_c W j bw).
Qed.
End Facts.
