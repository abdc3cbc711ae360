(** When a thread of the parallel clusterer panics. *)
From stdpp Require Import base list gmap.
From Coq Require Import NArith Lia.
From Verif Require Import ListFacts Base ParallelClusterer ParallelClustererFacts.
Local Open Scope nat_scope.

Section Facts.
Context {P : Type} `{Countable P}.
Context (query : P -> res (list P)) (min : nat) (checks : bool).
Notation memory := (memory P).
Notation thread := (thread P).
Notation system := (system (P := P)).
Notation thread_step := (thread_step query min checks).
Notation system_step := (system_step query min checks).
Notation run_schedule := (run_schedule query min checks).
Implicit Types (m : memory) (t : thread) (s : system).

(** The index in the loop is at least the number of points taken. *)
Definition counted (x : pc P) : Prop :=
  match x with
  | Check _ own _ i | Assign _ own _ i | Conflict1 _ own _ _ i _ | Conflict2 _ own _ _ i _
  | Conflict3 _ own _ _ i _ | Conflict4 _ own _ _ i _ => length own <= i
  | Undo _ own _ (Some (_, i)) => length own <= i
  | _ => True
  end.
Definition calm t : Prop := at_pc t <> Panicked -> counted (at_pc t) /\ forall p, p ∈ todo t -> is_Some (query p).

(** The only step that panics. *)
Definition overflows t : Prop := checks = true /\ exists a p rest c, at_pc t = Conflict2 a [] p rest 0 c.

Lemma step_calm m t m' t' : thread_step m t = Some (m', t') -> calm t ->
  calm t' /\ (at_pc t' = Panicked -> at_pc t = Panicked \/ overflows t).
Proof.
  intros Hst Hc. destruct t as [x td cl]. unfold calm in *. unfold ParallelClusterer.thread_step in Hst. cbn [at_pc todo clusters] in *.
  destruct x as [|qs acc|pts|b own rest i|b own pending k|b own rest i|b own p rest i c
    |b own p rest i c|b own p rest i c|b own p rest i c|b own|b own| |];
    try (destruct Hc as [C1 C2]; [discriminate|]; cbn [counted] in C1).
  - destruct td as [|p td]; [by injection Hst as <- <-|].
    assert (C3 : forall q, q ∈ td -> is_Some (query q)) by (intros q Hq; apply C2; by right).
    destruct (cells m !! p); [by injection Hst as <- <-|].
    destruct (C2 p) as [found Hf]; [by left|]. rewrite Hf in Hst. by injection Hst as <- <-.
  - destruct qs as [|q qs]; [destruct (min <=? length acc)|destruct (cells m !! q)]; by injection Hst as <- <-.
  - injection Hst as <- <-. split; [|done]. split; [cbn; lia|done].
  - destruct rest as [|p rest]; [by injection Hst as <- <-|].
    destruct (is_rolled_back m b) as [[]|]; [| |done]; by injection Hst as <- <-.
  - destruct pending as [|p pending]; [destruct k as [[rest i]|]|]; by injection Hst as <- <-.
  - destruct rest as [|p rest]; [by injection Hst as <- <-|].
    unfold assign_cluster in Hst. destruct (cells m !! p) as [c|]; injection Hst as <- <-; [done|]. split; [|done].
    split; [cbn; rewrite app_length; cbn; lia|done].
  - destruct (is_commited m c) as [[]|]; [| |done]; by injection Hst as <- <-.
  - destruct (is_rolled_back m c) as [[]|]; [| |done]; [|by injection Hst as <- <-].
    destruct checks eqn:Ek; cbn [andb] in Hst; [|injection Hst as <- <-; split; [|done]; split; [cbn; lia|done]].
    destruct (i =? 0) eqn:Ei; injection Hst as <- <-; [|split; [|done]; split; [cbn; lia|done]].
    apply Nat.eqb_eq in Ei as ->. split; [done|]. intros _. right. split; [done|]. cbn. destruct own as [|o own]; [eauto|cbn in C1; lia].
  - destruct (deref m c); [|done]. cbn in Hst. destruct (c <? b)%N; by injection Hst as <- <-.
  - destruct (rollback c m) as [[m1 ok]|]; [|done]. cbn in Hst. destruct ok; injection Hst as <- <-; [|done]. split; [|done].
    split; [cbn; rewrite app_length; cbn; lia|done].
  - destruct (rollback b m) as [[m1 ok]|]; [|done]. by injection Hst as <- <-.
  - destruct (commit b m) as [[m1 ok]|]; [|done]. cbn in Hst. destruct ok; by injection Hst as <- <-.
  - by injection Hst as <- <-.
  - injection Hst as <- <-. split; [done|]. by left.
Qed.

Lemma start_calm (ch : list P) : calm (cluster_slice_start query ch) /\
  (at_pc (cluster_slice_start query ch) = Panicked <-> exists p, p ∈ ch /\ query p = None).
Proof.
  unfold cluster_slice_start, calm. destruct (sort_by_most_number_of_similar_points query ch) as [sorted|] eqn:E; cbn.
  - assert (Hall : forall p, p ∈ ch -> is_Some (query p)).
    { unfold sort_by_most_number_of_similar_points in E. destruct (mapM query ch) as [l|] eqn:Em; [|done].
      apply mapM_Some_1 in Em. intros p (k & Hk)%elem_of_list_lookup. destruct (Forall2_lookup_l _ _ _ _ _ Em Hk) as (y & _ & Hy). eauto. }
    split.
    + intros _. split; [done|]. intros p Hp. apply Hall. by rewrite <- (sort_perm query ch sorted E).
    + split; [done|]. intros (p & Hp & Hn). destruct (Hall p Hp) as [f Hf]. congruence.
  - split; [done|]. split; [|done]. intros _. unfold sort_by_most_number_of_similar_points in E.
    destruct (mapM query ch) as [l|] eqn:Em; [done|]. apply mapM_None_1, Exists_exists in Em as (p & Hp & Hn). eauto.
Qed.

Lemma run_calm m0 chunks l : let s := run_schedule (System m0 (cluster_slice_start query <$> chunks) false) l in
  forall t, t ∈ threads s -> calm t.
Proof.
  cbn zeta. set (s0 := System _ _ _). assert (H0 : forall t, t ∈ threads s0 -> calm t).
  { intros t (ch & -> & _)%elem_of_list_fmap. apply start_calm. }
  revert H0. generalize s0. clear s0. unfold ParallelClusterer.run_schedule. induction l as [|i l IH]; intros s Hs; [done|]. cbn [fold_left].
  apply IH. unfold ParallelClusterer.system_step. destruct (undefined s); [done|]. destruct (threads s !! i) as [t|] eqn:Ei; [|done].
  destruct (thread_step (mem s) t) as [[m' t']|] eqn:Est; [|done]. cbn [threads]. intros u (j & Hj)%elem_of_list_lookup.
  apply list_lookup_insert_Some in Hj as [(-> & -> & _)|[_ Hj]].
  - apply (step_calm _ _ _ _ Est), Hs. by eapply elem_of_list_lookup_2.
  - apply Hs. by eapply elem_of_list_lookup_2.
Qed.

Lemma panic_step m0 chunks l i j t t' : let s := run_schedule (System m0 (cluster_slice_start query <$> chunks) false) l in
  threads s !! j = Some t -> at_pc t <> Panicked -> threads (system_step s i) !! j = Some t' -> at_pc t' = Panicked ->
  j = i /\ overflows t.
Proof.
  intros s Ht Hp Ht' Hp'. assert (Hc : calm t) by (apply (run_calm m0 chunks l); by eapply elem_of_list_lookup_2). fold s in Ht'.
  unfold ParallelClusterer.system_step in Ht'. destruct (undefined s); [congruence|].
  destruct (threads s !! i) as [u|] eqn:Ei; [|congruence].
  destruct (thread_step (mem s) u) as [[m' u']|] eqn:Est; [|cbn in Ht'; congruence]. cbn [threads] in Ht'.
  apply list_lookup_insert_Some in Ht' as [(-> & -> & _)|[_ Hj]]; [|congruence].
  rewrite Ht in Ei. injection Ei as <-. split; [done|].
  destruct (step_calm _ _ _ _ Est Hc) as [_ [|]]; done.
Qed.

Lemma panic_cause m0 chunks l i t ch : let s := run_schedule (System m0 (cluster_slice_start query <$> chunks) false) l in
  threads s !! i = Some t -> chunks !! i = Some ch -> at_pc t = Panicked ->
  checks = true \/ exists p, p ∈ ch /\ query p = None.
Proof.
  cbn zeta. revert t. induction l as [|j l IH] using rev_ind; intros t Ht Hch Hp.
  - right. cbn in Ht. rewrite list_lookup_fmap, Hch in Ht. cbn in Ht. injection Ht as <-. by apply start_calm.
  - set (s := run_schedule (System m0 (cluster_slice_start query <$> chunks) false) l) in *.
    assert (Es : run_schedule (System m0 (cluster_slice_start query <$> chunks) false) (l ++ [j]) = system_step s j).
    { unfold s, ParallelClusterer.run_schedule. by rewrite fold_left_app. }
    rewrite Es in Ht. destruct (threads s !! i) as [u|] eqn:Eu.
    + destruct (at_pc u) eqn:Ep; try (left; destruct (panic_step m0 chunks l j i u t Eu) as [_ [? _]]; [congruence|done..]).
      by apply (IH u).
    + exfalso. apply lookup_lt_Some in Ht. apply lookup_ge_None in Eu.
      assert (length (threads (system_step s j)) = length (threads s)); [|lia].
      unfold ParallelClusterer.system_step. destruct (undefined s); [done|]. destruct (threads s !! j); [|done].
      destruct (thread_step _ _) as [[? ?]|]; [|done]. cbn. by rewrite insert_length.
Qed.
End Facts.
