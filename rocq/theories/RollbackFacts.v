(** A cluster of the parallel clusterer that is not new any more cannot be committed. *)
From stdpp Require Import base list gmap.
From Coq Require Import NArith Lia.
From Verif Require Import ListFacts Base ParallelClusterer SpecAttempts ParallelClustererFacts ParallelClustererRaces.
Local Open Scope nat_scope.

Section Facts.
Context {P : Type} `{Countable P}.
Context (query : P -> res (list P)) (min : nat) (checks : bool) (a : N).
Notation memory := (memory P).
Notation thread := (thread P).
Notation system := (system (P := P)).
Notation thread_step := (thread_step query min checks).
Notation system_step := (system_step query min checks).
Notation run_schedule := (run_schedule query min checks).
Implicit Types (m : memory) (t : thread) (s : system) (c : N).

(** The state of [a] was set, and keeps its value. *)
Definition was_set (st : N) m : Prop := (a <= sequence m)%N /\ exists b, boxes m !! a = Some b /\ state b = st.

Lemma drop_set st c m : was_set st m -> was_set st (drop_box c m).
Proof.
  intros [Hle (b & Hb & Hs)]. unfold drop_box. destruct (boxes m !! c) as [b'|] eqn:E; [|by split; eauto].
  split; [done|]. cbn. destruct (decide (c = a)) as [->|Hne].
  - exists (Box (state b') true). rewrite lookup_insert. split; [done|]. cbn. congruence.
  - exists b. by rewrite lookup_insert_ne.
Qed.
Lemma drops_set st m (cl : list (N * list P)) : was_set st m -> was_set st (foldr (fun (x : N * list P) => drop_box x.1) m cl).
Proof. intros Hm. induction cl as [|x cl IH]; [done|]. by apply drop_set. Qed.
Lemma state_set st st' c m m1 ok : st <> 0%N -> set_state_from_new st' c m = Some (m1, ok) -> was_set st m ->
  was_set st m1 /\ (c = a -> ok = false).
Proof.
  intros Hst. unfold set_state_from_new. destruct (deref m c) as [y|] eqn:Ed; [|done]. cbn. apply deref_Some in Ed as [Ey _].
  intros E [Hle (b & Hb & Hs)]. destruct (state y =? 0)%N eqn:Ez; injection E as <- <-.
  - apply N.eqb_eq in Ez. assert (Hne : c <> a) by (intros ->; congruence). split; [|done]. split; [done|].
    exists b. cbn. by rewrite lookup_insert_ne.
  - split; [split; [done|eauto]|done].
Qed.

Lemma step_set st m t m' t' : st <> 0%N -> thread_step m t = Some (m', t') -> was_set st m ->
  was_set st m' /\ (a ∈ (clusters t').*1 -> a ∈ (clusters t).*1).
Proof.
  intros Hst0 Hst Hm. destruct t as [x td cl]. unfold ParallelClusterer.thread_step in Hst. cbn [at_pc todo clusters] in *.
  destruct x as [|qs acc|pts|b own rest i|b own pending k|b own rest i|b own p rest i c
    |b own p rest i c|b own p rest i c|b own p rest i c|b own|b own| |].
  - destruct td as [|p td]; [by injection Hst as <- <-|].
    destruct (cells m !! p); [by injection Hst as <- <-|].
    destruct (query p) as [found|]; injection Hst as <- <-; [done|]. split; [by apply drops_set|]. cbn. by intros ?%elem_of_nil.
  - destruct qs as [|q qs]; [destruct (min <=? length acc)|destruct (cells m !! q)]; by injection Hst as <- <-.
  - injection Hst as <- <-. split; [|done]. destruct Hm as [Hle (b & Hb & Hs)]. split; [cbn; lia|]. exists b. cbn.
    rewrite lookup_insert_ne by lia. done.
  - destruct rest as [|p rest]; [by injection Hst as <- <-|].
    destruct (is_rolled_back m b) as [[]|]; [| |done]; by injection Hst as <- <-.
  - destruct pending as [|p pending]; [destruct k as [[rest i]|]|]; injection Hst as <- <-; [done|split; [by apply drop_set|done]|].
    unfold unassign. by destruct (decide _).
  - destruct rest as [|p rest]; [by injection Hst as <- <-|].
    unfold assign_cluster in Hst. destruct (cells m !! p) as [c|]; by injection Hst as <- <-.
  - destruct (is_commited m c) as [[]|]; [| |done]; by injection Hst as <- <-.
  - destruct (is_rolled_back m c) as [[]|]; [destruct (checks && (i =? 0))%bool| |done]; injection Hst as <- <-; [|done..].
    split; [by apply drops_set, drop_set|]. cbn. by intros ?%elem_of_nil.
  - destruct (deref m c); [|done]. cbn in Hst. destruct (c <? b)%N; by injection Hst as <- <-.
  - destruct (rollback c m) as [[m1 ok]|] eqn:Er; [|done]. cbn in Hst. destruct (state_set _ _ _ _ _ _ Hst0 Er Hm) as [S1 _].
    destruct ok; by injection Hst as <- <-.
  - destruct (rollback b m) as [[m1 ok]|] eqn:Er; [|done]. destruct (state_set _ _ _ _ _ _ Hst0 Er Hm) as [S1 _]. by injection Hst as <- <-.
  - destruct (commit b m) as [[m1 ok]|] eqn:Er; [|done]. destruct (state_set _ _ _ _ _ _ Hst0 Er Hm) as [S1 S2]. cbn in Hst.
    destruct ok; injection Hst as <- <-; [|done]. split; [done|]. cbn [clusters]. rewrite fmap_app, elem_of_app. cbn.
    intros [?|E%elem_of_list_singleton]; [done|]. symmetry in E. by specialize (S2 E).
  - by injection Hst as <- <-.
  - by injection Hst as <- <-.
Qed.

Lemma run_set st s l : st <> 0%N -> was_set st (mem s) -> (forall t, t ∈ threads s -> a ∉ (clusters t).*1) ->
  was_set st (mem (run_schedule s l)) /\ forall t, t ∈ threads (run_schedule s l) -> a ∉ (clusters t).*1.
Proof.
  intros Hst0. revert s. unfold ParallelClusterer.run_schedule. induction l as [|i l IH]; intros s Hm Ht; [done|]. cbn [fold_left].
  assert (Hs : was_set st (mem (system_step s i)) /\ forall t, t ∈ threads (system_step s i) -> a ∉ (clusters t).*1).
  { unfold ParallelClusterer.system_step. destruct (undefined s); [done|]. destruct (threads s !! i) as [t|] eqn:Ei; [|done].
    destruct (thread_step (mem s) t) as [[m' t']|] eqn:Est; [|done]. cbn [mem threads].
    destruct (step_set _ _ _ _ _ Hst0 Est Hm) as [S1 S2]. split; [done|]. intros u (j & Hj)%elem_of_list_lookup.
    apply list_lookup_insert_Some in Hj as [(-> & -> & _)|[_ Hj]].
    - intros Ha. apply (Ht t); [by eapply elem_of_list_lookup_2|auto].
    - apply Ht. by eapply elem_of_list_lookup_2. }
  destruct Hs. by apply IH.
Qed.
End Facts.
