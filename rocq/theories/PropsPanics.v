(** Property C112: when a thread of the parallel clusterer panics, for every schedule. *)
From stdpp Require Import base list gmap.
From Coq Require Import NArith Lia.
From Verif Require Import Base ParallelClusterer ParallelClustererFacts PanicFacts PropsParallelClusterer.
Local Open Scope nat_scope.

Section C112.
Context {P : Type} `{Countable P}.
Context (query : P -> option (list P)) (min : nat) (checks : bool) (m0 : memory P) (chunks : list (list P)).
Notation run schedule :=
  (run_schedule query min checks (System m0 (cluster_slice_start query <$> chunks) false) schedule).

(** Before the first step a thread has panicked exactly if the query of one of its points does. *)
Theorem C112_start (i : nat) (ch : list P) :
  chunks !! i = Some ch ->
  exists t, threads (run []) !! i = Some t /\ (at_pc t = Panicked <-> exists p, p ∈ ch /\ query p = None).
Proof.
  intros Hch. exists (cluster_slice_start query ch). split; [|apply start_calm].
  cbn. by rewrite list_lookup_fmap, Hch.
Qed.

(** Later a thread panics only in a step of its own, in a build with overflow checks, at the
    first point of an attempt that has taken no point: [i] is 0, and the point is found to belong
    to a cluster that is rolled back (or committed: the states are the same number). *)
Theorem C112_step (schedule : list nat) (i j : nat) (t t' : thread P) :
  threads (run schedule) !! j = Some t -> at_pc t <> Panicked ->
  threads (run (schedule ++ [i])) !! j = Some t' -> at_pc t' = Panicked ->
  j = i /\ checks = true /\
  exists a p rest c b, at_pc t = Conflict2 a [] p rest 0 c /\
    boxes (mem (run schedule)) !! c = Some b /\ freed b = false /\ state b = 1%N.
Proof.
  intros Ht Hp Ht' Hp'. assert (Es : run (schedule ++ [i]) = system_step query min checks (run schedule) i).
  { unfold run_schedule. by rewrite fold_left_app. }
  rewrite Es in Ht'. destruct (panic_step query min checks m0 chunks schedule i j t t' Ht Hp Ht' Hp') as (-> & Hk & a & p & rest & c & Hx).
  split; [done|]. split; [done|]. exists a, p, rest, c.
  unfold system_step in Ht'. destruct (undefined _); [congruence|]. rewrite Ht in Ht'.
  destruct (thread_step _ _ _ _ _) as [[m' u]|] eqn:Est; [|cbn in Ht'; congruence].
  apply list_lookup_insert_Some in Ht' as [(_ & <- & _)|[? _]]; [|done].
  unfold thread_step in Est. rewrite Hx in Est. unfold is_rolled_back, deref in Est.
  destruct (boxes (mem (run schedule)) !! c) as [b|]; [|done]. exists b. cbn in Est.
  destruct (freed b) eqn:Ef; [done|]. cbn in Est. split; [done|]. split; [done|]. split; [done|].
  destruct (state b =? ROLLED_BACK)%N eqn:E; [by apply N.eqb_eq in E|]. by injection Est as _ <-.
Qed.

(** And there it does panic, and loses the clusters it has made. *)
Theorem C112_panics (schedule : list nat) (i : nat) (t : thread P) a own p rest c b :
  checks = true -> undefined (run schedule) = false ->
  threads (run schedule) !! i = Some t -> at_pc t = Conflict2 a own p rest 0 c ->
  boxes (mem (run schedule)) !! c = Some b -> freed b = false -> state b = 1%N ->
  exists t', threads (run (schedule ++ [i])) !! i = Some t' /\
    at_pc t' = Panicked /\ todo t' = todo t /\ clusters t' = [].
Proof.
  intros Hk Hu Ht Hx Hb Hf Hs. assert (Es : run (schedule ++ [i]) = system_step query min checks (run schedule) i).
  { unfold run_schedule. by rewrite fold_left_app. }
  rewrite Es. unfold system_step. rewrite Hu, Ht. unfold thread_step. rewrite Hx. unfold is_rolled_back, deref.
  rewrite Hb, Hf. cbn. rewrite Hs, Hk. cbn. eexists.
  split; [apply list_lookup_insert; rewrite <- Hk; exact (lookup_lt_Some _ _ _ Ht)|]. split; [done|]. by split.
Qed.

(** So without overflow checks a thread has panicked, after any schedule, exactly if the query of
    one of its points panics. *)
Theorem C112_release (schedule : list nat) (i : nat) (ch : list P) (t : thread P) :
  checks = false -> chunks !! i = Some ch -> threads (run schedule) !! i = Some t ->
  at_pc t = Panicked <-> exists p, p ∈ ch /\ query p = None.
Proof.
  intros Hk Hch Ht. split.
  - intros Hp. destruct (panic_cause query min checks m0 chunks schedule i t ch Ht Hch Hp) as [|]; [congruence|done].
  - intros Hq. revert t Ht. induction schedule as [|j l IH] using rev_ind; intros t Ht.
    + cbn in Ht. rewrite list_lookup_fmap, Hch in Ht. injection Ht as <-. by apply start_calm.
    + assert (Es : run (l ++ [j]) = system_step query min checks (run l) j) by (unfold run_schedule; by rewrite fold_left_app).
      rewrite Es in Ht. unfold system_step in Ht. destruct (undefined (run l)); [by apply IH|].
      destruct (threads (run l) !! j) as [u|] eqn:Eu; [|by apply IH].
      destruct (thread_step query min checks (mem (run l)) u) as [[m' u']|] eqn:Est; [|by apply IH].
      cbn in Ht. apply list_lookup_insert_Some in Ht as [(-> & -> & _)|[_ Ht]]; [|by apply IH].
      pose proof (IH u Eu) as Hpu. unfold thread_step in Est. rewrite Hpu in Est. by injection Est as _ <-.
Qed.
End C112.

(** C48_retry_panics_refuted: thread 0 stands at the first point of its attempt, found in cluster
    2; that cluster is set in between, and the next step of thread 0 panics. Without overflow
    checks it goes on. *)
Example C112_example :
  let s checks l := run_schedule ex_query 2 checks
    (System (Memory ∅ ∅ 0%N) (cluster_slice_start ex_query <$> [[2;4];[1;3]]%N) false) (by_turns l) in
  let mid := [(0,6);(1,9);(0,3);(1,2)] in
  at_pc <$> threads (s true mid) !! 0 = Some (Conflict2 1 [] 2 [1;3] 0 2)%N /\
  boxes (mem (s true mid)) !! 2%N = Some (Box 1 false) /\
  at_pc <$> threads (s true (mid ++ [(0,1)])) !! 0 = Some Panicked /\
  at_pc <$> threads (s false (mid ++ [(0,1)])) !! 0 = Some (Check 1 [] [1;3] 1)%N.
Proof. vm_compute. split_and!; reflexivity. Qed.

(** A thread whose query panics. *)
Example C112_query_example :
  let query (p : N) := if (p =? 4)%N then None else ex_query p in
  let e := run_schedule query 2 false
    (System (Memory ∅ ∅ 0%N) (cluster_slice_start query <$> [[2;4];[1;3]]%N) false) (by_turns [(0,9);(1,30)]) in
  at_pc <$> threads e = [Panicked; Done].
Proof. vm_compute. reflexivity. Qed.

Print Assumptions C112_start.
Print Assumptions C112_step.
Print Assumptions C112_panics.
Print Assumptions C112_release.
