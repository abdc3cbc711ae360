(** Property C110: the clusters of earlier calls of the parallel clusterer. *)
From stdpp Require Import base list gmap.
From Coq Require Import NArith Lia.
From Verif Require Import Base ParallelClusterer HeapClusterer SpecPrior ParallelClustererFacts PriorFacts PropsParallelClusterer.
Local Open Scope nat_scope.

Section C110.
Context {P : Type} `{Countable P}.
Context (query : P -> option (list P)) (min : nat) (checks : bool).
Notation run m chunks schedule :=
  (run_schedule query min checks (System m (cluster_slice_start query <$> chunks) false) schedule).

(** A call does not use, change or free the clusters of earlier calls, whatever the threads do:
    from two memories that differ in them only, the same happens. *)
Theorem C110_unused (m m' : memory P) (chunks : list (list P)) (schedule : list nat) :
  same_pointers m m' ->
  let s := run m chunks schedule in
  let s' := run m' chunks schedule in
  threads s = threads s' /\ undefined s = undefined s' /\ result s = result s' /\
  same_pointers (mem s) (mem s') /\
  (forall a, (sequence m < a <= sequence (mem s))%N -> boxes (mem s) !! a = boxes (mem s') !! a) /\
  (forall a, (a <= sequence m)%N -> boxes (mem s) !! a = boxes m !! a).
Proof.
  intros Hm s s'. destruct (start_both query min checks m m' chunks schedule Hm) as [(HA & Et & Eu) [HF _]].
  fold s in HA, Et, Eu, HF. fold s' in HA, Et, Eu. destruct HA as (E1 & E2 & E3).
  split; [done|]. split; [done|]. split; [unfold result; by rewrite Et, Eu|]. split; [done|]. split; [exact E3|].
  exact (f_boxes _ _ HF).
Qed.

(** So all that C47 says holds also if clusters of earlier calls were dropped: nothing is assumed
    of the clusters in memory. *)
Theorem C110_dropped (m0 : memory P) (chunks : list (list P)) (schedule : list nat) :
  (forall p found, query p = Some found -> NoDup found) ->
  issued m0 ->
  let s := run m0 chunks schedule in
  undefined s = false ->
  NoDup (concat (clusters <$> threads s)).*1 /\
  (forall i t ch a own, threads s !! i = Some t -> chunks !! i = Some ch -> (a, own) ∈ clusters t ->
    (sequence m0 < a <= sequence (mem s))%N /\
    boxes (mem s) !! a = Some (Box COMMITTED false) /\
    NoDup own /\
    exists p found, p ∈ ch /\ query p = Some found /\ own `sublist_of` found) /\
  (forall p a, cells m0 !! p = Some a -> cells (mem s) !! p = Some a) /\
  (forall cs, result s = Some cs -> forall p a, cells (mem s) !! p = Some a ->
    cells m0 !! p = Some a \/ exists own, (a, own) ∈ cs /\ p ∈ own).
Proof.
  intros Hq Hiss s Hu.
  set (m1 := Memory (cells m0) (gset_to_gmap (Box COMMITTED false) (list_to_set (map_to_list (cells m0)).*2)) (sequence m0)).
  assert (Hsame : same_pointers m0 m1) by done.
  destruct (C110_unused m0 m1 chunks schedule Hsame) as (Et & Eu & Er & (Ec & Es) & Eb & _). fold s in Et, Eu, Er, Ec, Es, Eb.
  assert (Hu1 : undefined (run m1 chunks schedule) = false) by (rewrite <- Eu; exact Hu).
  assert (Hg : forall p a, cells m1 !! p = Some a -> (a <= sequence m1)%N /\ boxes m1 !! a = Some (Box COMMITTED false)).
  { intros p a Hp. split; [exact (Hiss p a Hp)|]. cbn [boxes m1]. apply lookup_gset_to_gmap_Some. split; [|done].
    apply elem_of_list_to_set, elem_of_list_fmap. exists (p, a). split; [done|]. by apply elem_of_map_to_list. }
  destruct (C47_interleavings query min checks m1 chunks schedule Hq Hg Hu1) as (R1 & R2 & R3 & R4).
  rewrite <- Et in R1, R2. rewrite <- Es in R2. rewrite <- Ec in R3, R4. rewrite <- Er in R4.
  split; [exact R1|]. split; [|by split].
  intros i t ch a own Ht Hch Ha. destruct (R2 i t ch a own Ht Hch Ha) as (Q1 & Q2 & Q3). cbn [sequence m1] in Q1.
  split; [exact Q1|]. rewrite (Eb a Q1). by split.
Qed.

(** A call, any of its clusters dropped, another call: the second does what it would have done
    had they been kept, and its ids are new. *)
Theorem C110_next_call (m0 : memory P) (chunks chunks' : list (list P)) (schedule schedule' : list nat)
    (cs : list (N * list P)) (dropped : list N) :
  (forall p found, query p = Some found -> NoDup found) ->
  issued m0 ->
  let s := run m0 chunks schedule in
  result s = Some cs ->
  let m1 := after_drop dropped (mem s) in
  issued m1 /\
  let kept := run (mem s) chunks' schedule' in
  let s' := run m1 chunks' schedule' in
  threads s' = threads kept /\ undefined s' = undefined kept /\ result s' = result kept /\ cells (mem s') = cells (mem kept) /\
  forall cs', result s' = Some cs' -> NoDup (cs ++ cs').*1.
Proof.
  intros Hq Hiss s Hr m1.
  assert (Hu : undefined s = false).
  { unfold result in Hr. destruct (undefined s); [|done]. rewrite andb_false_r in Hr. done. }
  destruct (C110_dropped m0 chunks schedule Hq Hiss Hu) as (R1 & R2 & R3 & R4). fold s in R1, R2, R3, R4.
  assert (Hcs : cs = concat (clusters <$> threads s)).
  { unfold result in Hr. destruct (forallb is_done (threads s) && negb (undefined s))%bool; [|done]. by injection Hr as <-. }
  assert (Hlen : forall m c l, length (threads (run m c l)) = length c).
  { intros m c l. unfold run_schedule. set (s0 := System m (cluster_slice_start query <$> c) false).
    assert (H0 : length (threads s0) = length c) by (cbn; by rewrite fmap_length). revert H0. generalize s0. clear.
    induction l as [|i l IH]; intros s0 H0; [done|]. cbn. apply IH. unfold system_step. destruct (undefined s0); [done|].
    destruct (threads s0 !! i); [|done]. destruct (thread_step _ _ _ _ _) as [[? ?]|]; [|done]. cbn. by rewrite insert_length. }
  assert (Hids : forall m c l a, issued m -> undefined (run m c l) = false ->
      a ∈ (concat (clusters <$> threads (run m c l))).*1 -> (sequence m < a <= sequence (mem (run m c l)))%N).
  { intros m c l a Hi Hu' ([a' own] & -> & Ho)%elem_of_list_fmap. apply elem_of_list_In, in_concat in Ho as (cl & Hcl & Ho).
    apply elem_of_list_In in Hcl, Ho. apply elem_of_list_fmap in Hcl as (t & -> & Ht). apply elem_of_list_lookup in Ht as [i Ht].
    destruct (lookup_lt_is_Some_2 c i) as [ch Hch]; [rewrite <- (Hlen m c l); by eapply lookup_lt_Some|].
    destruct (C110_dropped m c l Hq Hi Hu') as (_ & Q & _). by destruct (Q i t ch a' own Ht Hch Ho). }
  assert (Hseq : (sequence m0 <= sequence (mem s))%N).
  { destruct (start_both query min checks m0 m0 chunks schedule ltac:(by split)) as [_ [HF _]]. exact (f_seq _ _ HF). }
  assert (Hiss1 : issued (mem s)).
  { intros p a Hp. destruct (R4 cs Hr p a Hp) as [Hold|(own & Ho & _)].
    - pose proof (Hiss p a Hold). lia.
    - apply (Hids m0 chunks schedule a Hiss Hu). fold s. rewrite <- Hcs. apply elem_of_list_fmap. by exists (a, own). }
  split; [exact Hiss1|]. cbn zeta.
  destruct (C110_unused m1 (mem s) chunks' schedule' ltac:(by split)) as (Et & Eu & Er & (Ec & _) & _).
  split; [exact Et|]. split; [exact Eu|]. split; [exact Er|]. split; [exact Ec|]. intros cs' Hr'.
  assert (Hu' : undefined (run m1 chunks' schedule') = false).
  { unfold result in Hr'. destruct (undefined (run m1 chunks' schedule')); [|done]. rewrite andb_false_r in Hr'. done. }
  assert (Hcs' : cs' = concat (clusters <$> threads (run m1 chunks' schedule'))).
  { unfold result in Hr'. destruct (_ && _)%bool; [|done]. by injection Hr' as <-. }
  rewrite fmap_app. apply NoDup_app. split; [by rewrite Hcs|]. split.
  - intros a Ha Ha'. rewrite Hcs in Ha. rewrite Hcs' in Ha'.
    pose proof (Hids m0 chunks schedule a Hiss Hu Ha). pose proof (Hids m1 chunks' schedule' a Hiss1 Hu' Ha') as Hb.
    fold s in H0. unfold m1 in Hb at 1. cbn [sequence after_drop] in Hb. lia.
  - rewrite Hcs'. by destruct (C110_dropped m1 chunks' schedule' Hq Hiss1 Hu').
Qed.
End C110.

(** C47's points in two calls. The cluster of the first call is dropped; the second call is made on
    all points, with minimum size 1, and leaves the points alone that had it. *)
Example C110_example :
  let s := run_schedule ex_query 2 true (ex_start [1;4;2;3]%N) (by_turns [(0,7);(1,12);(0,20);(1,20)]) in
  let m1 := after_drop [2%N] (mem s) in
  let s' := run_schedule ex_query 1 true (System m1 (cluster_slice_start ex_query <$> [[1;4];[2;3]]%N) false)
    (by_turns [(0,9);(1,9);(0,20)]) in
  result s = Some [(2, [2;3])]%N /\
  map_to_list (boxes m1) = [(1, Box ROLLED_BACK true); (2, Box COMMITTED true)]%N /\
  result s' = Some [(3, [1]); (4, [4])]%N /\
  map_to_list (cells (mem s')) = [(1,3);(3,2);(2,2);(4,4)]%N /\
  map_to_list (boxes (mem s')) = [(1, Box ROLLED_BACK true); (3, Box COMMITTED false); (2, Box COMMITTED true); (4, Box COMMITTED false)]%N.
Proof. vm_compute. split_and!; reflexivity. Qed.

(** After that, pointers of points lead to memory that was freed. *)
Theorem C110_dangling_refuted :
  exists (query : N -> option (list N)) (min : nat) (chunks : list (list N)) (schedule : list nat) cs,
    (forall p q f g, query p = Some f -> query q = Some g -> p ∈ f /\ (q ∈ f <-> p ∈ g)) /\
    let s := run_schedule query min true (System (Memory ∅ ∅ 0%N) (cluster_slice_start query <$> chunks) false) schedule in
    result s = Some cs /\
    let m1 := after_drop cs.*1 (mem s) in
    exists p a b, cells m1 !! p = Some a /\ boxes m1 !! a = Some b /\ freed b = true.
Proof.
  exists ex_query, 2, [[1;4];[2;3]]%N, (by_turns [(0,7);(1,12);(0,20);(1,20)]), [(2, [2;3])]%N.
  split; [exact ex_query_sym|]. cbn zeta. split; [vm_compute; reflexivity|].
  exists 3%N, 2%N, (Box COMMITTED true). split; [vm_compute; reflexivity|]. split; [vm_compute; reflexivity|reflexivity].
Qed.

Print Assumptions C110_unused.
Print Assumptions C110_dropped.
Print Assumptions C110_next_call.
Print Assumptions C110_dangling_refuted.

(** If a later call gets the address of a dropped cluster, a point that was in the dropped one has
    a pointer to the later one, which it is not in. *)
Theorem C110_reuse_refuted :
  exists (query : N -> option (list N)) (min : nat) (chunks chunks' : list (list N)) (l l' : list (nat * N)) cs cs',
    (forall p q f g, query p = Some f -> query q = Some g -> p ∈ f /\ (q ∈ f <-> p ∈ g)) /\
    let s := h_run query min true (h_start query 0 chunks) l in
    h_result s = Some cs /\
    (* all boxes of the result dropped *)
    let m1 := Heap (h_cells (h_mem s)) ∅ (h_sequence (h_mem s)) in
    let s' := h_run query min true (HSystem m1 (cluster_slice_start query <$> chunks') false) l' in
    h_result s' = Some cs' /\
    exists p a b own, h_cells (h_mem s') !! p = Some a /\ h_boxes (h_mem s') !! a = Some b /\
      (h_id b, own) ∈ cs' /\ NoDup cs'.*1 /\ p ∉ own.
Proof.
  exists ex_query, 1, [[2;1;3]]%N, [[4]]%N, (replicate 40 (0, 7%N)), (replicate 40 (0, 7%N)), [(1, [2;1;3])]%N, [(2, [4])]%N.
  split; [exact ex_query_sym|]. cbn zeta. split; [vm_compute; reflexivity|]. split; [vm_compute; reflexivity|].
  exists 1%N, 7%N, (HBox 2 COMMITTED), [4%N]. split; [vm_compute; reflexivity|]. split; [vm_compute; reflexivity|].
  split; [left|]. split; [apply NoDup_singleton|]. intros E%elem_of_list_singleton. discriminate E.
Qed.
Print Assumptions C110_reuse_refuted.
