(** Property C86: the private helper functions that no other code calls. *)
From stdpp Require Import base list gmap.
From Coq Require Import NArith Lia.
From Verif Require Import Base Par Float Similarity Container MinHashIndex SpecIndex SimHashBits Permutation
  SimHashIndex SpecSimHash Helpers SpecHelpers.
From Verif Require Import ParFacts ContainerFacts SimilarityFacts MinHashIndexFacts MinHashIndexThms
  SimHashIndexFacts HelpersFacts ExampleIndex.
Local Open Scope nat_scope.

(** [has_ids] of band [i] panics exactly on signatures that end inside the band. Otherwise it
    finds every stored id whose band hash is the same; if the history is clean it is true for no
    other reason. *)
Theorem C86_has_ids {T} `{!EqDecision T} {Id} `{Countable Id} (k : container_kind)
    (bh : list T -> N) (nb bw : nat) (th : f64) (ops : list (op Id T)) (i : nat) b (q : list T) :
  bands (after k bh nb bw th ops) !! i = Some b ->
  (has_ids (container k Id) bh q b = None <-> length q < (i + 1) * bw) /\
  forall r, has_ids (container k Id) bh q b = Some r ->
    ((exists id s, spec_map (nb * bw) ops !! id = Some s /\
        bh (nth_band bw i s) = bh (nth_band bw i q)) -> r = true) /\
    (clean (nb * bw) ops -> r = true ->
      exists id s, spec_map (nb * bw) ops !! id = Some s /\
        bh (nth_band bw i s) = bh (nth_band bw i q)).
Proof.
  intros Hb. pose proof (after_inv k bh nb bw th ops) as HI.
  destruct (inv_band _ _ _ _ _ _ _ HI _ _ Hb) as [Hok Hcov].
  destruct (decide (length q < (i + 1) * bw)) as [Hl|Hl].
  { rewrite (has_ids_short _ bh bw i b q Hok Hl). split; [done|]. by intros r. }
  destruct (has_ids_query _ (container_laws_all k) bh bw i b q Hok ltac:(lia)) as (r0 & -> & Hr & _).
  split; [done|]. intros r [= <-]. split.
  - intros (id & s & Hs & E). apply Hr. exists id. rewrite <- E. by apply Hcov.
  - intros Hc Ht. apply Hr in Ht as [x Hx].
    destruct (after_exact k bh nb bw th ops Hc i b Hb) as [Hex _].
    apply Hex in Hx as (s & Hs & E). eauto.
Qed.

Example C86_has_ids_example :
  (fun b => (has_ids (container KVec N) bhx [1;2;0;0]%N b, has_ids (container KVec N) bhx [0;0;9;9]%N b,
             has_ids (container KVec N) bhx [1;2;3]%N b))
    <$> bands (after KVec bhx 2 2 half clean_ops)
  = [(Some true, Some false, Some true); (Some false, Some false, None)].
Proof. vm_compute. reflexivity. Qed.
Print Assumptions C86_has_ids.

(** [filter_by_minhash_similarity] keeps the candidates whose distance from the query is at
    least the threshold. *)
Theorem C86_filter {T} `{!EqDecision T} {Id} `{Countable Id} (k : container_kind)
    (bh : list T -> N) (nb bw : nat) (th : f64) (ops : list (op Id T)) (q : list T)
    (cands : gset Id) :
  let m := after k bh nb bw th ops in
  ((forall id, id ∈ cands -> exists s, spec_map (nb * bw) ops !! id = Some s /\ length s = length q) ->
   exists S, filter_by_minhash_similarity (container k Id) m q cands = Some S /\
     forall id, id ∈ S <-> id ∈ cands /\
       exists s, spec_map (nb * bw) ops !! id = Some s /\ f64_ge (dist q s) th = true) /\
  (forall id, id ∈ cands ->
     (forall s, spec_map (nb * bw) ops !! id = Some s -> length s ≠ length q) ->
     filter_by_minhash_similarity (container k Id) m q cands = None).
Proof.
  intros m. pose proof (after_inv k bh nb bw th ops) as HI. split.
  - exact (filter_spec _ bh nb bw th m _ q cands HI).
  - intros id. exact (filter_panic _ bh nb bw th m _ q cands id HI).
Qed.
Print Assumptions C86_filter.

(** So it does the opposite of what its name and comment say. *)
Theorem C86_filter_refuted :
  exists (ops : list (op N N)) (q : list N) (cands : gset N) (same other : N) S,
    clean 4 ops /\ spec_map 4 ops !! same = Some q /\ same ∈ cands /\ same ∉ S /\
    (exists s, spec_map 4 ops !! other = Some s /\ agreements s q = 0) /\ other ∈ S /\
    filter_by_minhash_similarity (container KVec N) (after KVec bhx 2 2 half ops) q cands = Some S.
Proof.
  exists [Insert 1 [1;2;3;4]; Insert 2 [5;6;7;8]]%N, [1;2;3;4]%N, {[1%N; 2%N]}, 1%N, 2%N.
  assert (Hc : forall id, id ∈ ({[1%N; 2%N]} : gset N) -> exists s,
     spec_map 4 [Insert 1 [1;2;3;4]; Insert 2 [5;6;7;8]]%N !! id = Some s /\ length s = length [1;2;3;4]%N).
  { intros id Hid. rewrite elem_of_union, !elem_of_singleton in Hid. destruct Hid as [-> | ->].
    - by exists [1;2;3;4]%N.
    - by exists [5;6;7;8]%N. }
  destruct (proj1 (C86_filter KVec bhx 2 2 half _ [1;2;3;4]%N {[1%N; 2%N]}) Hc) as (S & HS & Hin).
  exists S. split; [by apply (bool_decide_unpack _); vm_compute|].
  split; [vm_compute; reflexivity|]. split; [set_solver|]. split; [|split; [|split; [|exact HS]]].
  - intros [_ (s & Hs & Hd)]%Hin.
    assert (E : Some s = Some [1;2;3;4]%N) by (rewrite <- Hs; vm_compute; reflexivity).
    injection E as ->. vm_compute in Hd. done.
  - exists [5;6;7;8]%N. split; vm_compute; reflexivity.
  - apply Hin. split; [set_solver|]. exists [5;6;7;8]%N. split; vm_compute; reflexivity.
Qed.
Print Assumptions C86_filter_refuted.

(** [avg_bucket_count] is 0 before the first insertion. After that it is the average over the
    tables, rounded down, of the number of insertions divided by the number of different values
    the signatures take on the masked bits, rounded down. *)
Theorem C86_avg_bucket_count {Id} `{Countable Id} (W nb d : nat) (ops : list (sop Id)) m :
  safter W nb d ops = Some m ->
  let sigs := inserted ops in
  let means := (fun p => length sigs / distinct_on (simple_mask p) sigs) <$> (t_perm <$> hash_tables m) in
  avg_bucket_count m = (if decide (sigs = []) then 0 else sum_list means / length means) /\
  (sigs ≠ [] -> 1 <= avg_bucket_count m <= length sigs).
Proof.
  intros Hm sigs means. destruct (counted_after W nb d ops m Hm) as (Hc & m0 & Hm0 & Hp).
  assert (Hne : hash_tables m ≠ []).
  { intros E. rewrite E in Hp. revert Hm0. unfold sindex_new.
    destruct (perm_create W nb d) as [[|p ps]|]; cbn; try done.
    intros [= <-]. by cbn in Hp. }
  assert (Hlen : length means = length (hash_tables m)) by (unfold means; by rewrite !fmap_length).
  pose proof (avg_spec _ _ Hc Hne) as Ha. fold sigs in Ha. rewrite Hlen.
  assert (Hb : sigs ≠ [] -> 1 * length means <= sum_list means <= length sigs * length means).
  { intros Hs. unfold means. rewrite fmap_length. apply sum_bounds. intros p _.
    destruct sigs as [|s l]; [done|].
    pose proof (distinct_on_bounds (simple_mask p) s l) as [Hlo Hhi].
    revert Hlo Hhi. generalize (distinct_on (simple_mask p) (s :: l)) (length (s :: l)). intros x n Hlo Hhi.
    split; [apply Nat.div_le_lower_bound; lia|].
    apply Nat.div_le_upper_bound; [lia|]. nia. }
  rewrite Hlen in Hb. assert (Hpos : length (hash_tables m) ≠ 0) by (by destruct (hash_tables m)).
  fold means in Ha. destruct sigs as [|s l] eqn:Es.
  - split; [exact Ha|done].
  - split; [exact Ha|]. intros Hs. rewrite Ha. specialize (Hb Hs). split.
    + apply Nat.div_le_lower_bound; lia.
    + apply Nat.div_le_upper_bound; [done|]. lia.
Qed.
Print Assumptions C86_avg_bucket_count.

(** Rounding twice loses more than a fraction: five ids are in 2 and in 3 buckets of the two
    tables, 2.08 ids per bucket on average. *)
Definition bucket_ops : list (sop N) :=
  [SInsert 1 0; SParBulkInsert [1;0]%nat [2;3;7] [1;4]; SParBulkInsertPairs [] [(4,8)]; SInsert 1 5]%N.
Theorem C86_avg_rounded_refuted :
  exists m, safter 4 2 1 bucket_ops = Some m /\
    (fun t => (size (t_table t), length (inserted bucket_ops))) <$> hash_tables m = [(2, 5); (3, 5)] /\
    2 * (2 * 2 * 3) <= 5 * 3 + 5 * 2 /\ avg_bucket_count m = 1.
Proof.
  destruct (safter 4 2 1 bucket_ops) as [m|] eqn:E; [|vm_compute in E; discriminate].
  exists m. assert (Em : Some ((fun t => (size (t_table t), length (inserted bucket_ops))) <$> hash_tables m,
     avg_bucket_count m) = Some ([(2, 5); (3, 5)], 1)).
  { change (Some ((fun t => (size (t_table t), length (inserted bucket_ops))) <$> hash_tables m,
      avg_bucket_count m)) with ((fun m => ((fun t => (size (t_table t), length (inserted bucket_ops))) <$> hash_tables m,
      avg_bucket_count m)) <$> Some m). rewrite <- E. vm_compute. reflexivity. }
  injection Em as E1 E2. split; [done|]. split; [exact E1|]. split; [lia|exact E2].
Qed.
Print Assumptions C86_avg_rounded_refuted.
