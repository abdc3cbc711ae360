(** What bulk insertions stopped half-way leave behind. *)
From stdpp Require Import base list gmap.
From Coq Require Import NArith.
From Verif Require Import Base Par ParFacts Float Similarity Container ContainerFacts
  MinHashIndex SpecIndex SpecHistory SpecStopped MinHashIndexFacts MinHashIndexFacts2
  MinHashIndexThms HistoryFacts HistoryQueryFacts.

(** ** Schedules *)
Section Steps.
Context {S I : Type} (body : I -> S -> option S).

Definition turns (sched : list nat) (i : nat) : nat := length (filter (fun j => j = i) sched).

Lemma par_steps_turns sched ts i :
  par_steps body sched ts !! i = (fun t => Nat.iter (turns sched i) (task_step body) t) <$> ts !! i.
Proof.
  revert ts. unfold par_steps. induction sched as [|j sched IH]; intros ts; simpl.
  { by destruct (ts !! i). }
  rewrite IH. unfold turns. rewrite filter_cons. destruct (decide (j = i)) as [->|Hne].
  - rewrite list_lookup_alter. destruct (ts !! i); simpl; [|done]. f_equal.
    symmetry. rewrite <- Nat.iter_succ_r. done.
  - by rewrite list_lookup_alter_ne.
Qed.

Lemma turns_app l1 l2 i : turns (l1 ++ l2) i = turns l1 i + turns l2 i.
Proof. unfold turns. by rewrite filter_app, app_length. Qed.
Lemma turns_replicate n j i : turns (replicate n j) i = if decide (j = i) then n else 0.
Proof.
  unfold turns. induction n as [|n IH]; simpl; [by destruct (decide _)|].
  rewrite filter_cons. destruct (decide (j = i)); simpl; [by rewrite IH|done].
Qed.

Lemma finish_all items states ts :
  Forall2 (on_track body items) states ts -> existsb t_dead ts = false ->
  task_finish body <$> ts = seq_loop body items <$> states.
Proof.
  induction 1 as [|s t ss ts Ht HF IH]; [done|]. simpl. intros [E1 E2]%orb_false_iff.
  f_equal; [by apply on_track_finish|by apply IH].
Qed.

(** Task [i] gets [f i] turns. *)
Definition turn_list (nb : nat) (f : nat -> nat) : list nat :=
  concat ((fun i => replicate (f i) i) <$> seq 0 nb).
Lemma turn_list_turns nb f i : i < nb -> turns (turn_list nb f) i = f i.
Proof.
  unfold turn_list. intros Hi.
  assert (Hg : forall a, turns (concat ((fun i => replicate (f i) i) <$> seq a nb)) i =
    if decide (a <= i < a + nb) then f i else 0).
  { clear Hi. induction nb as [|nb IH]; intros a; simpl.
    - rewrite decide_False by lia. done.
    - rewrite turns_app, turns_replicate, IH.
      repeat case_decide; try lia. by subst. }
  rewrite Hg, decide_True by lia. done.
Qed.
End Steps.

Section Facts.
Context {T : Type} `{!EqDecision T}.
Context {Id : Type} `{Countable Id}.
Context (k : container_kind) (bh : list T -> N) (nb bw : nat).
Notation K := (container k Id).
Notation band := (band (carrier K)).
Notation index := (index (carrier K) Id T).
Notation smap := (gmap Id (list T)).
Notation note := (note k bh bw).
Notation band_ok := (band_ok K bw).
Notation Inv := (Inv K bh nb bw).
Notation body := (bulk_body K bh).
Notation kept_step := (kept_step k bh (nb * bw) bw).
Implicit Types (b : band) (m : index) (sm : smap) (s q : list T) (ps : list (Id * list T)).

(** ** How far one band gets *)
Lemma reach_le i ps : reach bw i ps <= length ps.
Proof. induction ps as [|p ps IH]; simpl; [lia|]. case_decide; lia. Qed.
Lemma reach_take i j ps : reach bw i (take j ps) = Nat.min j (reach bw i ps).
Proof.
  revert j. induction ps as [|p ps IH]; intros [|j]; simpl; try done. case_decide; [|done].
  by rewrite IH.
Qed.

Lemma loop_reach i b ps :
  band_ok i b ->
  (seq_loop body ps b).2 = bool_decide (reach bw i ps < length ps) /\
  band_ok i (seq_loop body ps b).1 /\
  (forall key x, tally k (seq_loop body ps b).1 key x =
     foldl (note i key x) (tally k b key x) (take (reach bw i ps) ps)).
Proof.
  revert b. induction ps as [|[id s] ps IH]; intros b Hb; [done|].
  simpl. unfold bulk_body at 1 3 5. simpl. destruct (decide ((i + 1) * bw <= length s)) as [Hl|Hl].
  - destruct (band_insert_ok K (container_laws_all k) bh bw i b id s Hb Hl) as (b' & Hb' & Hok & _).
    rewrite Hb'. destruct (IH b' Hok) as (H2 & H1 & Ht). split; [|split; [done|]].
    + rewrite H2. apply bool_decide_ext. lia.
    + intros key x. rewrite Ht, (band_insert_tally k bh bw i b id s b') by done. done.
  - rewrite (band_insert_short K bh bw i b id s Hb) by lia. simpl.
    split; [|done]. first [reflexivity|by rewrite bool_decide_true by lia].
Qed.

(** [j] turns, none of them failing. *)
Lemma iter_steps i b ps j :
  band_ok i b -> j <= reach bw i ps ->
  Nat.iter j (task_step body) (Task b ps false) =
  Task (seq_loop body (take j ps) b).1 (drop j ps) false.
Proof.
  intros Hb. induction j as [|j IH]; intros Hj; [by rewrite drop_0|].
  rewrite Nat.iter_succ, IH by lia. unfold task_step. simpl.
  pose proof (reach_le i ps) as Hle.
  destruct (drop j ps) as [|p rest] eqn:Ed.
  { apply (f_equal length) in Ed. rewrite drop_length in Ed. simpl in Ed. lia. }
  assert (Hp : ps !! j = Some p).
  { rewrite <- (Nat.add_0_r j), <- lookup_drop, Ed. done. }
  rewrite (take_S_r _ _ _ Hp). rewrite (seq_loop_app body).
  destruct (loop_reach i b (take j ps) Hb) as (H2 & Hok & _).
  rewrite reach_take in H2. rewrite bool_decide_false in H2 by (rewrite take_length; lia).
  cbv zeta. rewrite H2. simpl.
  destruct (loop_reach i b (take (S j) ps) Hb) as (H3 & _ & _).
  rewrite reach_take in H3. rewrite bool_decide_false in H3 by (rewrite take_length; lia).
  rewrite (take_S_r _ _ _ Hp), (seq_loop_app body) in H3. cbv zeta in H3. rewrite H2 in H3. simpl in H3.
  assert (Hr : drop (S j) ps = rest).
  { replace (S j) with (j + 1) by lia. rewrite <- drop_drop, Ed. done. }
  rewrite Hr. destruct (body p (seq_loop body (take j ps) b).1); [done|]. simpl in H3. done.
Qed.

(** One turn more than the band can take. *)
Lemma iter_fail i b ps :
  band_ok i b -> reach bw i ps < length ps ->
  let t := Nat.iter (S (reach bw i ps)) (task_step body) (Task b ps false) in
  t_state t = (seq_loop body (take (reach bw i ps) ps) b).1 /\ t_dead t = true.
Proof.
  intros Hb Hr. rewrite Nat.iter_succ, (iter_steps i) by done. set (j := reach bw i ps) in *.
  unfold task_step. simpl. destruct (drop j ps) as [|p rest] eqn:Ed.
  { apply (f_equal length) in Ed. rewrite drop_length in Ed. simpl in Ed. lia. }
  assert (Hp : ps !! j = Some p).
  { rewrite <- (Nat.add_0_r j), <- lookup_drop, Ed. done. }
  destruct (loop_reach i b (take j ps) Hb) as (H2 & Hok & _).
  rewrite reach_take in H2. rewrite bool_decide_false in H2 by (rewrite take_length; lia).
  destruct (loop_reach i b (take (S j) ps) Hb) as (H3 & _ & _).
  rewrite reach_take in H3. rewrite bool_decide_true in H3 by (rewrite take_length; lia).
  rewrite (take_S_r _ _ _ Hp), (seq_loop_app body) in H3. cbv zeta in H3. rewrite H2 in H3. simpl in H3.
  destruct (body p (seq_loop body (take j ps) b).1); [done|]. done.
Qed.

(** ** A stopped loop over all bands *)
Lemma stopped_parts th m sm sched ps :
  Inv th m sm -> pairs_too_short (nb * bw) ps = true ->
  exists f : nat -> nat,
    (forall i, i < nb -> f i <= reach bw i ps) /\
    (exists i, i < nb /\ f i = reach bw i ps /\ reach bw i ps < length ps) /\
    forall i b, bands m !! i = Some b ->
      exists b', (par_for_each body sched ps (bands m)).1 !! i = Some b' /\
        forall key x, tally k b' key x = foldl (note i key x) (tally k b key x) (take (f i) ps).
Proof.
  intros HI Ep. pose proof HI as [Hlen Hband _ _ _ _ _ _].
  pose proof (bulk_panic K (container_laws_all k) bh nb bw th m sm sched ps HI) as Hbp.
  rewrite Ep in Hbp. revert Hbp. unfold par_for_each.
  pose proof (par_steps_init body sched ps (bands m)) as HF.
  set (ts := par_steps body sched _) in *. clearbody ts.
  destruct (existsb t_dead ts) eqn:E; simpl; intros Hbp.
  - exists (fun i => match ts !! i with
      | Some t => Nat.min (length ps - length (t_todo t)) (reach bw i ps) | None => 0 end).
    split; [|split].
    + intros i _. destruct (ts !! i); lia.
    + apply existsb_exists in E as (t & Ht & Hd).
      apply elem_of_list_In, elem_of_list_lookup in Ht as [i Hi].
      destruct (Forall2_lookup_r _ _ _ _ _ HF Hi) as (b & Hb & j & Hj & Hrun & Htodo & _).
      exists i. rewrite Hi. destruct (Hband i b Hb) as [Hok _].
      destruct (loop_reach i b (take j ps) Hok) as (H2 & _). rewrite Hrun in H2. simpl in H2.
      rewrite Hd in H2. symmetry in H2. apply bool_decide_eq_true in H2.
      rewrite reach_take, take_length in H2. rewrite Htodo, drop_length.
      split; [rewrite <- Hlen; by eapply lookup_lt_Some|]. lia.
    + intros i b Hb. destruct (Forall2_lookup_l _ _ _ _ _ HF Hb) as (t & Ht & j & Hj & Hrun & Htodo & _).
      exists (t_state t). rewrite list_lookup_fmap, Ht. split; [done|]. intros key x.
      destruct (Hband i b Hb) as [Hok _].
      destruct (loop_reach i b (take j ps) Hok) as (_ & _ & Hta). rewrite Hrun in Hta. simpl in Hta.
      rewrite Hta, reach_take, take_take, Htodo, drop_length. f_equal. f_equal. lia.
  - exists (fun i => reach bw i ps). split; [lia|].
    rewrite (finish_all body ps (bands m) ts HF E) in *. split.
    + apply existsb_exists in Hbp as ([b' d] & Hin & Hd). simpl in Hd. subst d.
      apply elem_of_list_In, elem_of_list_fmap in Hin as (b & Hbd & Hin).
      apply elem_of_list_lookup in Hin as [i Hi]. exists i.
      destruct (Hband i b Hi) as [Hok _]. destruct (loop_reach i b ps Hok) as (H2 & _).
      rewrite <- Hbd in H2. simpl in H2. symmetry in H2. apply bool_decide_eq_true in H2.
      split; [rewrite <- Hlen; by eapply lookup_lt_Some|done].
    + intros i b Hi. exists (seq_loop body ps b).1. split.
      * by rewrite !list_lookup_fmap, Hi.
      * destruct (Hband i b Hi) as [Hok _]. by apply loop_reach.
Qed.

Lemma stopped_attained th m sm ps (f : nat -> nat) :
  Inv th m sm -> pairs_too_short (nb * bw) ps = true ->
  (forall i, i < nb -> f i <= reach bw i ps) ->
  (exists i, i < nb /\ f i = reach bw i ps /\ reach bw i ps < length ps) ->
  exists sched, forall i b, bands m !! i = Some b ->
    exists b', (par_for_each body sched ps (bands m)).1 !! i = Some b' /\
      forall key x, tally k b' key x = foldl (note i key x) (tally k b key x) (take (f i) ps).
Proof.
  intros HI Ep Hf (i0 & Hi0 & He & Hlt). pose proof HI as [Hlen Hband _ _ _ _ _ _].
  exists (turn_list nb f ++ [i0]). unfold par_for_each.
  set (ts := par_steps body _ _).
  assert (Hts : forall i b, bands m !! i = Some b -> exists t, ts !! i = Some t /\
    t_state t = (seq_loop body (take (f i) ps) b).1 /\ (i = i0 -> t_dead t = true)).
  { intros i b Hi. assert (Hin : i < nb) by (rewrite <- Hlen; by eapply lookup_lt_Some).
    destruct (Hband i b Hi) as [Hok _]. unfold ts.
    rewrite par_steps_turns, list_lookup_fmap, Hi. simpl. eexists. split; [done|].
    rewrite turns_app, turn_list_turns by done.
    change [i0] with (replicate 1 i0). rewrite turns_replicate.
    destruct (decide (i0 = i)) as [<-|Hne].
    - rewrite He, Nat.add_1_r. destruct (iter_fail i0 b ps Hok Hlt) as [H1 H2].
      split; [exact H1|]. intros _. exact H2.
    - rewrite Nat.add_0_r, (iter_steps i) by auto. simpl. split; [done|]. by intros ->. }
  assert (Hd : existsb t_dead ts = true).
  { destruct (lookup_lt_is_Some_2 (bands m) i0) as [b Hb]; [by rewrite Hlen|].
    destruct (Hts i0 b Hb) as (t & Ht & _ & Hdt). apply existsb_exists. exists t.
    split; [|by apply Hdt]. apply elem_of_list_In. by eapply elem_of_list_lookup_2. }
  rewrite Hd. simpl. intros i b Hi. destruct (Hts i b Hi) as (t & Ht & Hst & _).
  exists (t_state t). rewrite list_lookup_fmap, Ht. split; [done|]. intros key x.
  destruct (Hband i b Hi) as [Hok _]. rewrite Hst.
  destruct (loop_reach i b (take (f i) ps) Hok) as (_ & _ & Hta).
  rewrite Hta, reach_take, take_take. f_equal. f_equal.
  assert (i < nb) by (rewrite <- Hlen; by eapply lookup_lt_Some). specialize (Hf i ltac:(done)). lia.
Qed.

(** ** Calls *)
Lemma stopped_none (o : op Id T) : stopped (nb * bw) o = None -> whole_op (nb * bw) o.
Proof.
  destruct o; simpl; try done.
  - destruct sigs as [|s0 sigs]; [done|]. intros E Hl. rewrite decide_True in E by done.
    by destruct (pairs_too_short _ _).
  - by destruct (pairs_too_short _ _).
Qed.

Lemma stopped_some m sm th o ps :
  Inv th m sm -> stopped (nb * bw) o = Some ps ->
  exists sched, (step K bh m o).1 = (par_bulk_insert_pairs K bh sched ps m).1 /\
    pairs_too_short (nb * bw) ps = true /\
    forall sched', exists o', unscheduled o' = unscheduled o /\
      (step K bh m o').1 = (par_bulk_insert_pairs K bh sched' ps m).1.
Proof.
  intros HI. destruct o; simpl; try done.
  - destruct sigs as [|s0 sigs]; [done|]. destruct (decide (length s0 = nb * bw)) as [Hl|]; [|done].
    destruct (pairs_too_short _ _) eqn:E; [|done]. intros [= <-].
    exists sched. split; [|split; [done|]].
    + simpl. by rewrite decide_True by (rewrite (inv_n _ _ _ _ _ _ _ HI); done).
    + intros sched'. exists (ParBulkInsert sched' ids (s0 :: sigs)). split; [done|].
      simpl. by rewrite decide_True by (rewrite (inv_n _ _ _ _ _ _ _ HI); done).
  - destruct (pairs_too_short _ _) eqn:E; [|done]. intros [= <-]. exists sched.
    split; [done|]. split; [done|]. intros sched'. by exists (ParBulkInsertPairs sched' pairs).
Qed.

Lemma pairs_bands th m sm sched ps :
  Inv th m sm -> pairs_too_short (nb * bw) ps = true ->
  bands (par_bulk_insert_pairs K bh sched ps m).1 = (par_for_each body sched ps (bands m)).1.
Proof.
  intros HI Ep. unfold par_bulk_insert_pairs.
  by rewrite (bulk_panic K (container_laws_all k) bh nb bw th m sm), Ep.
Qed.

Lemma step_kept th m sm f o :
  Inv th m sm -> tallies k m f ->
  exists part, legit nb bw (o, part) /\
    tallies k (step K bh m o).1 (fun i key x => kept_step i key x sm (f i key x) (o, part)).
Proof.
  intros HI Hf. unfold legit, SpecStopped.kept_step. simpl.
  destruct (stopped (nb * bw) o) as [ps|] eqn:E.
  - destruct (stopped_some m sm th o ps HI E) as (sched & Hst & Ep & _).
    destruct (stopped_parts th m sm sched ps HI Ep) as (part & H1 & H2 & H3).
    exists part. split; [done|]. rewrite Hst. intros i b'.
    rewrite (pairs_bands th m sm) by done. intros Hi' key x.
    destruct (lookup_lt_is_Some_2 (bands m) i) as [b Hb].
    { rewrite (inv_len _ _ _ _ _ _ _ HI).
      destruct (step_inv K (container_laws_all k) bh nb bw th m sm o HI) as [HI' _].
      apply (f_equal bands) in Hst. rewrite (pairs_bands th m sm) in Hst by done.
      rewrite <- Hst in Hi'. rewrite <- (inv_len _ _ _ _ _ _ _ HI'). by eapply lookup_lt_Some. }
    destruct (H3 i b Hb) as (b2 & Hb2 & Hta). rewrite Hi' in Hb2. injection Hb2 as <-.
    by rewrite Hta, (Hf i b Hb).
  - exists (fun _ => 0). split; [done|]. by apply (step_tallies k bh nb bw th), stopped_none.
Qed.

Lemma step_attained th m sm f c :
  Inv th m sm -> tallies k m f -> legit nb bw c ->
  exists o', unscheduled o' = unscheduled c.1 /\
    tallies k (step K bh m o').1 (fun i key x => kept_step i key x sm (f i key x) c).
Proof.
  intros HI Hf. destruct c as [o part]. unfold legit, SpecStopped.kept_step. simpl.
  destruct (stopped (nb * bw) o) as [ps|] eqn:E.
  - intros [H1 H2]. destruct (stopped_some m sm th o ps HI E) as (_ & _ & Ep & Ho).
    destruct (stopped_attained th m sm ps part HI Ep H1 H2) as (sched & H3).
    destruct (Ho sched) as (o' & He & Hst). exists o'. split; [done|]. rewrite Hst. intros i b'.
    rewrite (pairs_bands th m sm) by done. intros Hi' key x.
    destruct (lookup_lt_is_Some_2 (bands m) i) as [b Hb].
    { rewrite (inv_len _ _ _ _ _ _ _ HI).
      destruct (step_inv K (container_laws_all k) bh nb bw th m sm o' HI) as [HI' _].
      apply (f_equal bands) in Hst. rewrite (pairs_bands th m sm) in Hst by done.
      rewrite <- Hst in Hi'. rewrite <- (inv_len _ _ _ _ _ _ _ HI'). by eapply lookup_lt_Some. }
    destruct (H3 i b Hb) as (b2 & Hb2 & Hta). rewrite Hi' in Hb2. injection Hb2 as <-.
    by rewrite Hta, (Hf i b Hb).
  - intros _. exists o. split; [done|]. by apply (step_tallies k bh nb bw th), stopped_none.
Qed.
End Facts.
