(** Property C109: the attempts of the parallel clusterer, their ids and their memory. *)
From stdpp Require Import base list gmap.
From Coq Require Import NArith Lia.
From Verif Require Import Base ParallelClusterer SpecAttempts ParallelClustererFacts AttemptFacts PropsParallelClusterer
  HeapClusterer HeapInv HeapAttempts.
Local Open Scope nat_scope.

Section C109.
Context {P : Type} `{Countable P}.
Context (query : P -> option (list P)) (min : nat) (checks : bool) (m0 : memory P).
Notation run chunks schedule :=
  (run_schedule query min checks (System m0 (cluster_slice_start query <$> chunks) false) schedule).

(** Each point leads to at most one attempt: no more ids are used up than there are points, and no
    thread has more clusters than its chunk has points, whatever the threads do. *)
Theorem C109_attempts (chunks : list (list P)) (schedule : list nat) :
  (sequence (mem (run chunks schedule)) <= sequence m0 + N.of_nat (length (concat chunks)))%N /\
  forall i t ch, threads (run chunks schedule) !! i = Some t -> chunks !! i = Some ch ->
    length (clusters t) <= length ch.
Proof. exact (attempts_bound query min checks m0 chunks schedule). Qed.

(** So the counter of 32 bits does not wrap in a call of [cluster_par] on fewer points than there
    are ids left. *)
Theorem C109_counter (n_threads : nat) (points : list P) (s0 : system) (schedule : list nat) :
  cluster_par_start query m0 n_threads points = Some s0 ->
  (sequence m0 + N.of_nat (length points) < 2 ^ 32)%N ->
  (sequence (mem (run_schedule query min checks s0 schedule)) < 2 ^ 32)%N.
Proof.
  unfold cluster_par_start. destruct (cluster_par_chunks n_threads points) as [chunks|] eqn:E; [|done].
  intros [= <-] Hlt. destruct (C49_chunks _ _ _ E) as [Hc _].
  destruct (C109_attempts chunks schedule) as [Hs _]. rewrite Hc in Hs.
  exact (N.le_lt_trans _ _ _ Hs Hlt).
Qed.

Context (Hstart : forall p a, cells m0 !! p = Some a ->
  (a <= sequence m0)%N /\ boxes m0 !! a = Some (Box COMMITTED false)).

(** At any moment, the cluster of an attempt is in memory iff a thread holds it, and then just one
    thread does: a cluster that was given up is freed. *)
Theorem C109_memory (chunks : list (list P)) (schedule : list nat) (a : N) :
  let s := run chunks schedule in
  undefined s = false ->
  (sequence m0 < a <= sequence (mem s))%N ->
  exists b, boxes (mem s) !! a = Some b /\
    (freed b = false <-> exists i t, threads s !! i = Some t /\ has_cluster t a) /\
    forall i j t u, threads s !! i = Some t -> threads s !! j = Some u ->
      has_cluster t a -> has_cluster u a -> i = j.
Proof.
  intros s Hu Ha. destruct (kept_run query min checks m0 chunks schedule ltac:(by constructor) Hu) as [HI HK]. fold s in HI, HK.
  assert (Hlive : forall i t, threads s !! i = Some t -> a ∈ ids t -> exists st, boxes (mem s) !! a = Some (Box st false)).
  { intros i t Ht Hin. destruct (lookup_lt_is_Some_2 chunks i) as [ch Hch].
    { rewrite <- (i_len _ _ _ _ HI). by eapply lookup_lt_Some. }
    pose proof (i_thread _ _ _ _ HI i t ch Ht Hch) as [_ _ T3 T4].
    apply ids_elem in Hin as [[own Ho]|Ho]; [destruct (T3 _ _ Ho) as [_ ->]; eauto|exact (T4 _ Ho)]. }
  assert (Hdisj : forall i j t u, threads s !! i = Some t -> threads s !! j = Some u ->
      has_cluster t a -> has_cluster u a -> i = j).
  { intros i j t u Ht Hj H1 H2. apply ids_elem in H1, H2. destruct (decide (i = j)) as [|Hne]; [done|].
    by destruct (i_disj _ _ _ _ HI i j t u a Hne Ht Hj H1). }
  destruct (HK a Ha) as [(i & t & Ht & Hin)|(b & Hb & Hf)].
  - destruct (Hlive i t Ht Hin) as [st Hb]. exists (Box st false). split; [done|]. split; [|done]. split; [|done].
    intros _. exists i, t. split; [done|]. by apply ids_elem.
  - exists b. split; [done|]. split; [|done]. split; [congruence|]. intros (i & t & Ht & Hh).
    apply ids_elem in Hh. destruct (Hlive i t Ht Hh) as [st Hb']. rewrite Hb in Hb'. by injection Hb' as ->.
Qed.

(** When all threads are over, also by a panic, exactly the clusters that the threads return are
    left. *)
Theorem C109_no_leak (chunks : list (list P)) (schedule : list nat) (a : N) :
  let s := run chunks schedule in
  undefined s = false ->
  (forall t, t ∈ threads s -> over t) ->
  (sequence m0 < a <= sequence (mem s))%N ->
  exists b, boxes (mem s) !! a = Some b /\
    (freed b = false <-> a ∈ (concat (clusters <$> threads s)).*1).
Proof.
  intros s Hu Hover Ha. destruct (C109_memory chunks schedule a Hu Ha) as (b & Hb & Hf & _). fold s in Hb, Hf.
  exists b. split; [done|]. rewrite Hf. rewrite elem_of_list_fmap. split.
  - intros (i & t & Ht & [[own Ho]|Ho]).
    + exists (a, own). split; [done|]. apply elem_of_list_In, in_concat. exists (clusters t).
      rewrite <- !elem_of_list_In. split; [|done]. apply elem_of_list_fmap. exists t. split; [done|]. by eapply elem_of_list_lookup_2.
    + assert (Ht' : t ∈ threads s) by by eapply elem_of_list_lookup_2.
      destruct (Hover t Ht') as [E|E]; rewrite E in Ho; done.
  - intros ([a' own] & -> & Ho). apply elem_of_list_In, in_concat in Ho as (cl & Hcl & Ho).
    apply elem_of_list_In in Hcl, Ho.
    apply elem_of_list_fmap in Hcl as (t & -> & Ht). apply elem_of_list_lookup in Ht as [i Ht].
    exists i, t. split; [done|]. left. by exists own.
Qed.

(** Of a finished call: the memory left is that of the result. *)
Theorem C109_result (chunks : list (list P)) (schedule : list nat) (cs : list (N * list P)) :
  let s := run chunks schedule in
  result s = Some cs ->
  length cs <= length (concat chunks) /\
  forall a, (sequence m0 < a <= sequence (mem s))%N ->
    exists b, boxes (mem s) !! a = Some b /\ (freed b = false <-> a ∈ cs.*1).
Proof.
  intros s Hr. unfold result in Hr. destruct (forallb is_done (threads s)) eqn:Ed; [|done].
  destruct (undefined s) eqn:Eu; [done|]. cbn in Hr. injection Hr as <-. split.
  - assert (Hlen : length (threads s) = length chunks).
    { destruct (kept_run query min checks m0 chunks schedule ltac:(by constructor) Eu) as [HI _]. exact (i_len _ _ _ _ HI). }
    destruct (C109_attempts chunks schedule) as [_ Hn]. fold s in Hn. revert Hlen Hn. generalize (threads s). clear.
    intros ts. revert chunks. induction ts as [|t ts IH]; intros [|ch chunks] Hlen Hn; try done.
    cbn. rewrite !app_length. pose proof (Hn 0 t ch eq_refl eq_refl). cbn in Hlen.
    assert (length (concat (clusters <$> ts)) <= length (concat chunks)).
    { apply IH; [lia|]. intros i u c Hu Hc. exact (Hn (S i) u c Hu Hc). }
    unfold fmap in *. lia.
  - intros a Ha. apply (C109_no_leak chunks schedule a Eu); [|done]. intros t Ht.
    rewrite forallb_forall in Ed. specialize (Ed t (proj1 (elem_of_list_In _ _) Ht)). unfold is_done in Ed. left.
    destruct (at_pc t); done.
Qed.
End C109.

(** C47's points. The first thread loses: its cluster is freed, two ids are used up, one cluster is
    returned. *)
Example C109_example :
  let s l := run_schedule ex_query 2 true (ex_start [1;4;2;3]%N) (by_turns l) in
  let e := s [(0,7);(1,12);(0,20);(1,20)] in
  result e = Some [(2, [2;3])]%N /\ sequence (mem e) = 2%N /\
  map_to_list (boxes (mem e)) = [(1, Box ROLLED_BACK true); (2, Box COMMITTED false)]%N /\
  (* midway both threads hold one *)
  map_to_list (boxes (mem (s [(0,7);(1,10)]))) = [(1, Box 0 false); (2, Box 0 false)]%N /\
  (attempt ∘ at_pc) <$> threads (s [(0,7);(1,10)]) = [Some 1; Some 2]%N.
Proof. vm_compute. split_and!; reflexivity. Qed.

(** The first thread has made a cluster and panics in the next attempt (C48): both its clusters are
    freed, the one of the second thread stays. *)
Definition c109_query (p : N) : option (list N) :=
  Some (match p with 1 => [1;2] | 2 => [2;1;3] | 3 => [3;2] | 5 => [5;6;7;8] | _ => [p] end)%N.
Example C109_panic_example :
  let s l := run_schedule c109_query 2 true
    (System (Memory ∅ ∅ 0%N) (cluster_slice_start c109_query <$> [[2;4;5];[1;3]]%N) false) (by_turns l) in
  threads (s [(0,17)]) = [Thread Next [2;4] [(1, [5;6;7;8])]; Thread Next [1;3] []]%N /\
  let e := s [(0,23);(1,9);(0,3);(1,2);(0,1);(1,30)] in
  threads e = [Thread Panicked [4] []; Thread Done [] [(3, [1;2])]]%N /\ undefined e = false /\
  map_to_list (boxes (mem e)) = [(1, Box COMMITTED true); (3, Box COMMITTED false); (2, Box 0 true)]%N.
Proof. vm_compute. split_and!; reflexivity. Qed.

(** The same when the allocator gives out addresses again (C89), in all executions: there is a box
    at an address iff a thread holds it, and in the end just those of the result are left. *)
Theorem C109_heap {P} `{Countable P} (query : P -> option (list P)) (min : nat) (checks : bool) (n : N)
    (chunks : list (list P)) (l : list (nat * N)) :
  let s := h_run query min checks (h_start query n chunks) l in
  (h_sequence (h_mem s) <= n + N.of_nat (length (concat chunks)))%N /\
  (forall i t ch, h_threads s !! i = Some t -> chunks !! i = Some ch -> length (clusters t) <= length ch) /\
  (forall a, is_Some (h_boxes (h_mem s) !! a) <-> exists i t, h_threads s !! i = Some t /\ has_cluster t a) /\
  forall cs, h_result s = Some cs -> forall a b, h_boxes (h_mem s) !! a = Some b -> exists own, (h_id b, own) ∈ cs.
Proof.
  intros s. destruct (heap_attempts query min checks n chunks l) as (H1 & H2 & H3). fold s in H1, H2, H3.
  pose proof (hrun_inv query min checks n chunks l) as HI. fold s in HI.
  split; [lia|]. split; [intros i t ch Ht Hch; pose proof (H3 i t ch Ht Hch) as Hr; unfold room in Hr; lia|].
  assert (Hheld : forall a, is_Some (h_boxes (h_mem s) !! a) -> exists i t, h_threads s !! i = Some t /\ has_cluster t a).
  { intros a Ha. destruct (H1 a Ha) as (i & t & Ht & Hin). exists i, t. split; [done|]. by apply ids_elem. }
  split.
  - intros a. split; [apply Hheld|]. intros (i & t & Ht & Hh). destruct (lookup_lt_is_Some_2 chunks i) as [ch Hch].
    { rewrite <- (hi_len _ _ _ _ HI). by eapply lookup_lt_Some. }
    apply (h_ids_live query (h_mem s) ch t a); [by apply (hi_thread _ _ _ _ HI i)|by apply ids_elem].
  - intros cs Hr a b Hb. destruct (Hheld a ltac:(by exists b)) as (i & t & Ht & Hh).
    assert (Hin : t ∈ h_threads s) by by eapply elem_of_list_lookup_2.
    unfold h_result in Hr. destruct (forallb is_done (h_threads s)) eqn:Ed; [|done]. destruct (h_undefined s); [done|].
    cbn in Hr. injection Hr as <-.
    rewrite forallb_forall in Ed. specialize (Ed t (proj1 (elem_of_list_In _ _) Hin)). unfold is_done in Ed.
    destruct Hh as [[own Ho]|Ho]; [|destruct (at_pc t); done]. exists own. apply elem_of_list_fmap. exists (a, own).
    split; [unfold h_id_at; cbn; by rewrite Hb|].
    apply elem_of_list_In, in_concat. exists (clusters t). rewrite <- !elem_of_list_In. split; [|done].
    apply elem_of_list_fmap. by exists t.
Qed.

(** The panic of [C109_panic_example] with an allocator that wants to give address 7. *)
Example C109_heap_example :
  let s l := h_run c109_query 2 true (h_start c109_query 0 [[2;4;5];[1;3]]%N)
    ((fun i : nat => (i, 7%N)) <$> by_turns l) in
  let e := s [(0,23);(1,9);(0,3);(1,2);(0,1);(1,30)] in
  h_undefined e = false /\ h_sequence (h_mem e) = 3%N /\
  map_to_list (h_boxes (h_mem (s [(0,23)]))) = [(7, HBox 1 COMMITTED); (8, HBox 2 0)]%N /\
  map_to_list (h_boxes (h_mem e)) = [(9, HBox 3 COMMITTED)]%N.
Proof. vm_compute. split_and!; reflexivity. Qed.

(** The ids of the returned clusters are not consecutive, and not as many as the ids used up. *)
Theorem C109_consecutive_refuted :
  exists (query : N -> option (list N)) (min : nat) (points : list N) (s0 : system (P := N)) (schedule : list nat) cs,
    (forall p q f g, query p = Some f -> query q = Some g -> p ∈ f /\ (q ∈ f <-> p ∈ g)) /\
    cluster_par_start query (Memory ∅ ∅ 0%N) 2 points = Some s0 /\
    let s := run_schedule query min true s0 schedule in
    result s = Some cs /\ 1%N ∉ cs.*1 /\ 2%N ∈ cs.*1 /\ (N.of_nat (length cs) < sequence (mem s))%N.
Proof.
  exists ex_query, 2, [1;4;2;3]%N. eexists. exists (by_turns [(0,7);(1,12);(0,20);(1,20)]), [(2, [2;3])]%N.
  split; [exact ex_query_sym|]. split; [vm_compute; reflexivity|]. cbn zeta.
  split; [vm_compute; reflexivity|]. split; [|split].
  - cbn. intros E%elem_of_list_singleton. discriminate E.
  - cbn. left.
  - vm_compute. reflexivity.
Qed.

Print Assumptions C109_attempts.
Print Assumptions C109_counter.
Print Assumptions C109_memory.
Print Assumptions C109_no_leak.
Print Assumptions C109_result.
Print Assumptions C109_heap.
Print Assumptions C109_consecutive_refuted.
