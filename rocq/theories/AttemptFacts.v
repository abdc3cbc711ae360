(** How many attempts the parallel clusterer makes and what becomes of their memory. *)
From stdpp Require Import base list gmap.
From Coq Require Import NArith Lia.
From Verif Require Import ListFacts Base ParallelClusterer SpecAttempts ParallelClustererFacts ParallelClustererRaces TableFacts.
Local Open Scope nat_scope.

Section Facts.
Context {P : Type} `{Countable P}.
Context (query : P -> res (list P)) (min : nat) (checks : bool).
Notation memory := (memory P).
Notation thread := (thread P).
Notation system := (system (P := P)).
Notation thread_step := (thread_step query min checks).
Notation system_step := (system_step query min checks).
Notation run_schedule := (run_schedule query min checks).
Implicit Types (m : memory) (t : thread) (s : system) (a c : N).

Lemma unwind_mem m t : sequence (unwind t m).1 = sequence m.
Proof. apply (drop_boxes_eq (clusters t) m). Qed.

(** ** Attempts still possible *)
Definition spare t : nat := length (todo t) + match at_pc t with Filter _ _ | Alloc _ => 1 | _ => 0 end.
Definition room t : nat :=
  length (clusters t) + length (todo t) + match at_pc t with Next | Done | Panicked => 0 | _ => 1 end.

Lemma spare_step m t m' t' : thread_step m t = Some (m', t') ->
  (sequence m' + N.of_nat (spare t') <= sequence m + N.of_nat (spare t))%N /\ room t' <= room t.
Proof.
  intros Hst. destruct t as [x td cl]. unfold ParallelClusterer.thread_step in Hst. cbn [at_pc todo clusters] in *.
  assert (Hss : forall st b m1 ok, set_state_from_new st b m = Some (m1, ok) -> sequence m1 = sequence m)
    by (intros st b m1 ok E; apply (set_state_mem _ _ _ _ _ E)).
  assert (Hdb : forall b, sequence (drop_box b m) = sequence m) by (intros b; apply drop_box_eq).
  assert (Hun : forall t m1, sequence m1 = sequence m -> sequence (unwind t m1).1 = sequence m)
    by (intros t m1 E; by rewrite unwind_mem).
  unfold spare, room.
  destruct x as [|qs acc|pts|b own rest i|b own pending k|b own rest i|b own p rest i c
    |b own p rest i c|b own p rest i c|b own p rest i c|b own|b own| |].
  - destruct td as [|p td]; [injection Hst as <- <-; cbn; lia|].
    destruct (cells m !! p); [injection Hst as <- <-; cbn; lia|].
    destruct (query p) as [found|] eqn:Eq; injection Hst as <- <-; [cbn; lia|].
    change (foldr _ m cl) with (unwind (Thread Next (p :: td) cl) m).1. rewrite Hun by done. cbn. lia.
  - destruct qs as [|q qs]; [destruct (min <=? length acc)|destruct (cells m !! q)]; injection Hst as <- <-; cbn; lia.
  - injection Hst as <- <-. cbn. lia.
  - destruct rest as [|p rest]; [injection Hst as <- <-; cbn; lia|].
    destruct (is_rolled_back m b) as [[]|]; [| |done]; injection Hst as <- <-; cbn; lia.
  - destruct pending as [|p pending]; [destruct k as [[rest i]|]|]; injection Hst as <- <-; [cbn; lia|rewrite Hdb; cbn; lia|].
    unfold unassign. destruct (decide _); cbn; lia.
  - destruct rest as [|p rest]; [injection Hst as <- <-; cbn; lia|].
    unfold assign_cluster in Hst. destruct (cells m !! p) as [c|]; injection Hst as <- <-; cbn; lia.
  - destruct (is_commited m c) as [[]|]; [| |done]; injection Hst as <- <-; cbn; lia.
  - destruct (is_rolled_back m c) as [[]|]; [destruct (checks && (i =? 0))%bool| |done]; injection Hst as <- <-; [|cbn; lia..].
    change (foldr _ (drop_box b m) cl) with (unwind (Thread (P := P) Next [] cl) (drop_box b m)).1. rewrite Hun by apply Hdb. cbn. lia.
  - destruct (deref m c); [|done]. cbn in Hst. destruct (c <? b)%N; injection Hst as <- <-; cbn; lia.
  - destruct (rollback c m) as [[m1 ok]|] eqn:Er; [|done]. cbn in Hst. apply Hss in Er.
    destruct ok; injection Hst as <- <-; rewrite Er; cbn; lia.
  - destruct (rollback b m) as [[m1 ok]|] eqn:Er; [|done]. apply Hss in Er. injection Hst as <- <-. cbn [fst]. rewrite Er. cbn. lia.
  - destruct (commit b m) as [[m1 ok]|] eqn:Er; [|done]. apply Hss in Er. cbn in Hst.
    destruct ok; injection Hst as <- <-; rewrite Er; cbn; rewrite ?app_length; cbn; lia.
  - injection Hst as <- <-. cbn; lia.
  - injection Hst as <- <-. cbn; lia.
Qed.

Lemma sum_insert {A} (f : A -> nat) (l : list A) i x y : l !! i = Some x ->
  sum_list (f <$> <[i := y]> l) + f x = sum_list (f <$> l) + f y.
Proof.
  revert i. induction l as [|z l IH]; intros [|i] E; try discriminate E.
  - injection E as ->. change (<[0 := y]> (x :: l)) with (y :: l). rewrite !fmap_cons, !sum_cons. lia.
  - specialize (IH i E). change (<[S i := y]> (z :: l)) with (z :: <[i := y]> l). rewrite !fmap_cons, !sum_cons. lia.
Qed.

Lemma spare_run s l :
  (sequence (mem (run_schedule s l)) + N.of_nat (sum_list (spare <$> threads (run_schedule s l)))
    <= sequence (mem s) + N.of_nat (sum_list (spare <$> threads s)))%N /\
  forall i t, threads s !! i = Some t -> exists t', threads (run_schedule s l) !! i = Some t' /\ room t' <= room t.
Proof.
  revert s. induction l as [|j l IH]; intros s; [split; [cbn; lia|eauto]|]. cbn [ParallelClusterer.run_schedule fold_left].
  destruct (IH (system_step s j)) as [H1 H2]. unfold ParallelClusterer.run_schedule in *.
  assert (Hs : (sequence (mem (system_step s j)) + N.of_nat (sum_list (spare <$> threads (system_step s j)))
      <= sequence (mem s) + N.of_nat (sum_list (spare <$> threads s)))%N /\
    forall i t, threads s !! i = Some t -> exists t', threads (system_step s j) !! i = Some t' /\ room t' <= room t).
  { unfold ParallelClusterer.system_step. destruct (undefined s); [split; [lia|eauto]|].
    destruct (threads s !! j) as [t|] eqn:Et; [|split; [lia|eauto]].
    destruct (thread_step (mem s) t) as [[m' t']|] eqn:Est; [|split; [cbn; lia|cbn; eauto]]. cbn [mem threads].
    destruct (spare_step _ _ _ _ Est) as [E1 E2]. split.
    - pose proof (sum_insert spare (threads s) j t t' Et). lia.
    - intros i u Hu. destruct (decide (j = i)) as [<-|Hne].
      + exists t'. rewrite list_lookup_insert by (by eapply lookup_lt_Some). split; [done|]. congruence.
      + exists u. by rewrite list_lookup_insert_ne. }
  destruct Hs as [H3 H4]. split; [lia|]. intros i t Ht. destruct (H4 i t Ht) as (t1 & Ht1 & Hr1).
  destruct (H2 i t1 Ht1) as (t2 & Ht2 & Hr2). exists t2. split; [done|lia].
Qed.

Lemma start_spare (ch : list P) : spare (cluster_slice_start query ch) = length ch /\ room (cluster_slice_start query ch) = length ch.
Proof.
  unfold cluster_slice_start, spare, room. destruct (sort_by_most_number_of_similar_points query ch) as [sorted|] eqn:E; cbn; [|lia].
  rewrite (Permutation_length (sort_perm query ch sorted E)). lia.
Qed.
Lemma length_concat_sum {A} (ls : list (list A)) : length (concat ls) = sum_list (length <$> ls).
Proof. induction ls as [|l ls IH]; [done|]. cbn [concat fmap list_fmap]. rewrite app_length, sum_cons. rewrite IH. done. Qed.

Lemma attempts_bound m0 chunks l : let s := run_schedule (System m0 (cluster_slice_start query <$> chunks) false) l in
  (sequence (mem s) <= sequence m0 + N.of_nat (length (concat chunks)))%N /\
  forall i t ch, threads s !! i = Some t -> chunks !! i = Some ch -> length (clusters t) <= length ch.
Proof.
  intros s. destruct (spare_run (System m0 (cluster_slice_start query <$> chunks) false) l) as [H1 H2]. fold s in H1, H2.
  cbn [mem threads] in *. split.
  - assert (E : spare <$> (cluster_slice_start query <$> chunks) = length <$> chunks).
    { rewrite <- list_fmap_compose. apply list_fmap_ext. intros j ch _. apply start_spare. }
    rewrite E in H1. rewrite length_concat_sum. lia.
  - intros i t ch Ht Hch. destruct (H2 i (cluster_slice_start query ch)) as (t' & Ht' & Hr).
    { by rewrite list_lookup_fmap, Hch. }
    rewrite Ht in Ht'. injection Ht' as <-. destruct (start_spare ch) as [_ E]. rewrite E in Hr. unfold room in Hr. lia.
Qed.

(** ** What is not held is freed *)
Definition gone m a : Prop := exists b, boxes m !! a = Some b /\ freed b = true.

Lemma drop_gone a b m : gone m a -> gone (drop_box b m) a.
Proof.
  intros (x & Hx & Hf). unfold drop_box, gone. destruct (boxes m !! b) as [y|] eqn:E; [|eauto]. cbn.
  destruct (decide (b = a)) as [->|Hne]; [rewrite lookup_insert; eauto|rewrite lookup_insert_ne by done; eauto].
Qed.
Lemma drop_self a m : is_Some (boxes m !! a) -> gone (drop_box a m) a.
Proof. intros [b E]. unfold drop_box, gone. rewrite E. cbn. rewrite lookup_insert. eauto. Qed.
Lemma drops_gone a m (cl : list (N * list P)) : gone m a -> gone (foldr (fun (x : N * list P) => drop_box x.1) m cl) a.
Proof. intros Hg. induction cl as [|x cl IH]; [done|]. by apply drop_gone. Qed.
Lemma drops_self a m (cl : list (N * list P)) : is_Some (boxes m !! a) -> a ∈ cl.*1 ->
  gone (foldr (fun (x : N * list P) => drop_box x.1) m cl) a.
Proof.
  intros Hs. induction cl as [|x cl IH]; intros Ha; [by apply elem_of_nil in Ha|]. cbn in *. apply elem_of_cons in Ha as [->|Ha].
  - destruct (decide (x.1 ∈ cl.*1)) as [Hin|Hno]; [by apply drop_gone, IH|]. apply drop_self.
    destruct (drop_boxes_eq cl m) as (_ & _ & E). by rewrite E.
  - by apply drop_gone, IH.
Qed.
Lemma set_state_gone st b m m1 ok a : set_state_from_new st b m = Some (m1, ok) -> gone m a -> gone m1 a.
Proof.
  intros E (x & Hx & Hf). unfold set_state_from_new in E. destruct (deref m b) as [y|] eqn:Ed; [|done]. cbn in E.
  apply deref_Some in Ed as [Ey Hy]. destruct (state y =? 0)%N; injection E as <- <-; [|by exists x].
  exists x. split; [|done]. cbn. rewrite lookup_insert_ne; [done|]. intros ->. congruence.
Qed.

Lemma step_gone m t m' t' a : thread_step m t = Some (m', t') -> (a <= sequence m)%N -> gone m a -> gone m' a.
Proof.
  intros Hst Ha Hg. destruct t as [x td cl]. unfold ParallelClusterer.thread_step in Hst. cbn [at_pc todo clusters] in *.
  destruct x as [|qs acc|pts|b own rest i|b own pending k|b own rest i|b own p rest i c
    |b own p rest i c|b own p rest i c|b own p rest i c|b own|b own| |].
  - destruct td as [|p td]; [by injection Hst as <- <-|].
    destruct (cells m !! p); [by injection Hst as <- <-|].
    destruct (query p) as [found|] eqn:Eq; injection Hst as <- <-; [done|]. by apply drops_gone.
  - destruct qs as [|q qs]; [destruct (min <=? length acc)|destruct (cells m !! q)]; by injection Hst as <- <-.
  - injection Hst as <- <-. destruct Hg as (x & Hx & Hf). exists x. cbn. rewrite lookup_insert_ne by lia. done.
  - destruct rest as [|p rest]; [by injection Hst as <- <-|].
    destruct (is_rolled_back m b) as [[]|]; [| |done]; by injection Hst as <- <-.
  - destruct pending as [|p pending]; [destruct k as [[rest i]|]|]; injection Hst as <- <-; [done|by apply drop_gone|].
    unfold unassign. by destruct (decide _).
  - destruct rest as [|p rest]; [by injection Hst as <- <-|].
    unfold assign_cluster in Hst. destruct (cells m !! p) as [c|]; by injection Hst as <- <-.
  - destruct (is_commited m c) as [[]|]; [| |done]; by injection Hst as <- <-.
  - destruct (is_rolled_back m c) as [[]|]; [destruct (checks && (i =? 0))%bool| |done]; injection Hst as <- <-; [|done..].
    by apply drops_gone, drop_gone.
  - destruct (deref m c); [|done]. cbn in Hst. destruct (c <? b)%N; by injection Hst as <- <-.
  - destruct (rollback c m) as [[m1 ok]|] eqn:Er; [|done]. cbn in Hst. pose proof (set_state_gone _ _ _ _ _ _ Er Hg).
    destruct ok; by injection Hst as <- <-.
  - destruct (rollback b m) as [[m1 ok]|] eqn:Er; [|done]. pose proof (set_state_gone _ _ _ _ _ _ Er Hg). by injection Hst as <- <-.
  - destruct (commit b m) as [[m1 ok]|] eqn:Er; [|done]. pose proof (set_state_gone _ _ _ _ _ _ Er Hg). cbn in Hst.
    destruct ok; by injection Hst as <- <-.
  - by injection Hst as <- <-.
  - by injection Hst as <- <-.
Qed.

(** A cluster leaves a thread only by being freed. *)
Lemma step_leaves m t m' t' a : thread_step m t = Some (m', t') -> is_Some (boxes m !! a) -> a ∈ ids t ->
  a ∈ ids t' \/ gone m' a.
Proof.
  intros Hst Hs. rewrite !ids_elem. destruct t as [x td cl]. unfold ParallelClusterer.thread_step in Hst. cbn [at_pc todo clusters] in *.
  assert (Hcl : (exists own, (a, own) ∈ cl) -> a ∈ cl.*1).
  { intros [own Ho]. apply elem_of_list_fmap. by exists (a, own). }
  destruct x as [|qs acc|pts|b own rest i|b own pending k|b own rest i|b own p rest i c
    |b own p rest i c|b own p rest i c|b own p rest i c|b own|b own| |].
  - destruct td as [|p td]; [injection Hst as <- <-; by left|].
    destruct (cells m !! p); [injection Hst as <- <-; by left|].
    destruct (query p) as [found|] eqn:Eq; injection Hst as <- <-; [by left|].
    intros [Ho|Ho]; [|done]. right. apply drops_self; [done|]. by apply Hcl.
  - destruct qs as [|q qs]; [destruct (min <=? length acc)|destruct (cells m !! q)]; injection Hst as <- <-; by left.
  - injection Hst as <- <-. cbn. intros [Ho|?]; [|done]. by left; left.
  - destruct rest as [|p rest]; [injection Hst as <- <-; by left|].
    destruct (is_rolled_back m b) as [[]|]; [| |done]; injection Hst as <- <-; by left.
  - destruct pending as [|p pending]; [destruct k as [[rest i]|]|]; injection Hst as <- <-; cbn; [by left| |by left].
    intros [Ho|[= ->]]; [by left; left|]. right. by apply drop_self.
  - destruct rest as [|p rest]; [injection Hst as <- <-; by left|].
    unfold assign_cluster in Hst. destruct (cells m !! p) as [c|]; injection Hst as <- <-; by left.
  - destruct (is_commited m c) as [[]|]; [| |done]; injection Hst as <- <-; by left.
  - destruct (is_rolled_back m c) as [[]|]; [destruct (checks && (i =? 0))%bool| |done]; injection Hst as <- <-; [|by left..].
    intros [Ho|Ho]; right.
    + destruct (decide (b = a)) as [->|Hne]; [by apply drops_gone, drop_self|]. apply drops_self; [|by apply Hcl].
      destruct (drop_box_eq b m) as (_ & _ & E). by rewrite E.
    + injection Ho as ->. by apply drops_gone, drop_self.
  - destruct (deref m c); [|done]. cbn in Hst. destruct (c <? b)%N; injection Hst as <- <-; by left.
  - destruct (rollback c m) as [[m1 ok]|]; [|done]. cbn in Hst. destruct ok; injection Hst as <- <-; by left.
  - destruct (rollback b m) as [[m1 ok]|]; [|done]. injection Hst as <- <-. by left.
  - destruct (commit b m) as [[m1 ok]|]; [|done]. cbn in Hst. destruct ok; injection Hst as <- <-; [|by left].
    cbn. intros [(own' & Ho)|[= ->]]; left; left; [exists own'|exists own]; apply elem_of_app; [by left|right; by left].
  - injection Hst as <- <-. by left.
  - injection Hst as <- <-. by left.
Qed.
(** A new one belongs to the thread that made it. *)
Lemma step_new m t m' t' : thread_step m t = Some (m', t') ->
  sequence m' = sequence m \/ (sequence m' = (sequence m + 1)%N /\ (sequence m + 1)%N ∈ ids t').
Proof.
  intros Hst. destruct (decide (sequence m' = sequence m)) as [E|E]; [by left|]. right.
  destruct t as [x td cl]. unfold ParallelClusterer.thread_step in Hst. cbn [at_pc todo clusters] in *.
  destruct x as [|qs acc|pts|b own rest i|b own pending k|b own rest i|b own p rest i c
    |b own p rest i c|b own p rest i c|b own p rest i c|b own|b own| |]; [|  |
    injection Hst as <- <-; split; [done|]; apply ids_elem; by right| ..]; exfalso; apply E; clear E.
  - destruct td as [|p td]; [by injection Hst as <- <-|].
    destruct (cells m !! p); [by injection Hst as <- <-|].
    destruct (query p) as [found|] eqn:Eq; injection Hst as <- <-; [done|]. apply (drop_boxes_eq cl m).
  - destruct qs as [|q qs]; [destruct (min <=? length acc)|destruct (cells m !! q)]; by injection Hst as <- <-.
  - destruct rest as [|p rest]; [by injection Hst as <- <-|].
    destruct (is_rolled_back m b) as [[]|]; [| |done]; by injection Hst as <- <-.
  - destruct pending as [|p pending]; [destruct k as [[rest i]|]|]; injection Hst as <- <-; [done|apply drop_box_eq|].
    unfold unassign. by destruct (decide _).
  - destruct rest as [|p rest]; [by injection Hst as <- <-|].
    unfold assign_cluster in Hst. destruct (cells m !! p) as [c|]; by injection Hst as <- <-.
  - destruct (is_commited m c) as [[]|]; [| |done]; by injection Hst as <- <-.
  - destruct (is_rolled_back m c) as [[]|]; [destruct (checks && (i =? 0))%bool| |done]; injection Hst as <- <-; [|done..].
    destruct (drop_boxes_eq cl (drop_box b m)) as (_ & -> & _). apply drop_box_eq.
  - destruct (deref m c); [|done]. cbn in Hst. destruct (c <? b)%N; by injection Hst as <- <-.
  - destruct (rollback c m) as [[m1 ok]|] eqn:Er; [|done]. cbn in Hst. destruct (set_state_mem _ _ _ _ _ Er) as [_ E].
    destruct ok; by injection Hst as <- <-.
  - destruct (rollback b m) as [[m1 ok]|] eqn:Er; [|done]. destruct (set_state_mem _ _ _ _ _ Er) as [_ E]. by injection Hst as <- <-.
  - destruct (commit b m) as [[m1 ok]|] eqn:Er; [|done]. destruct (set_state_mem _ _ _ _ _ Er) as [_ E]. cbn in Hst.
    destruct ok; by injection Hst as <- <-.
  - by injection Hst as <- <-.
  - by injection Hst as <- <-.
Qed.

Definition kept m0 s : Prop := forall a, (sequence m0 < a <= sequence (mem s))%N ->
  (exists i t, threads s !! i = Some t /\ a ∈ ids t) \/ gone (mem s) a.

Lemma kept_step m0 chunks s i : good_start m0 -> inv query m0 chunks s -> kept m0 s ->
  undefined (system_step s i) = false -> kept m0 (system_step s i).
Proof.
  intros Hg HI HK. unfold ParallelClusterer.system_step. destruct (undefined s) eqn:Eu; [done|].
  destruct (threads s !! i) as [t|] eqn:Et; [|done].
  destruct (thread_step (mem s) t) as [[m' t']|] eqn:Est; [|done]. intros _ a. cbn [mem threads]. intros Ha.
  assert (Hi : <[i := t']> (threads s) !! i = Some t') by (apply list_lookup_insert; by eapply lookup_lt_Some).
  destruct (lookup_lt_is_Some_2 chunks i) as [ch Hch].
  { rewrite <- (i_len _ _ _ _ HI). by eapply lookup_lt_Some. }
  pose proof (i_thread _ _ _ _ HI i t ch Et Hch) as [_ _ T3 T4].
  destruct (decide (a <= sequence (mem s))%N) as [Hle|Hgt].
  - destruct (HK a ltac:(lia)) as [(j & u & Hu & Hau)|Hgone].
    + destruct (decide (i = j)) as [<-|Hne].
      * rewrite Et in Hu. injection Hu as <-.
        destruct (step_leaves _ _ _ _ a Est) as [Hin|Hgo]; [|done| |].
        -- apply ids_elem in Hau as [[own Ho]|Ho]; [destruct (T3 _ _ Ho) as [_ ->]; eauto|destruct (T4 _ Ho) as [st ->]; eauto].
        -- left. eauto.
        -- by right.
      * left. exists j, u. split; [by rewrite list_lookup_insert_ne|done].
    + right. by apply (step_gone _ _ _ _ a Est).
  - destruct (step_new _ _ _ _ Est) as [E|[E Hin]]; [lia|]. assert (a = (sequence (mem s) + 1)%N) as -> by lia. left. eauto.
Qed.

Lemma kept_run m0 chunks l : good_start m0 ->
  let s := run_schedule (System m0 (cluster_slice_start query <$> chunks) false) l in undefined s = false ->
  inv query m0 chunks s /\ kept m0 s.
Proof.
  intros Hg. set (s0 := System m0 _ false). cbn zeta.
  assert (Hk : kept m0 s0) by (intros a; cbn; lia).
  pose proof (start_inv query m0 chunks) as HI. fold s0 in HI. revert HI Hk. generalize s0. clear s0.
  induction l as [|i l IH]; intros s HI HK Hu; [done|]. unfold ParallelClusterer.run_schedule in *. cbn [fold_left] in *.
  assert (Hst : forall l s', undefined s' = true -> undefined (fold_left system_step l s') = true).
  { clear. induction l as [|j l IHl]; intros s' Hs'; [done|]. cbn. rewrite undefined_stable by done. auto. }
  destruct (undefined (system_step s i)) eqn:E; [rewrite Hst in Hu; done|].
  apply IH; [by apply system_inv|by apply (kept_step m0 chunks)|done].
Qed.
End Facts.
