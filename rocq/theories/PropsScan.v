(** Property C77: when the index answers like a scan of all stored signatures, so that neither the
    bands nor the band hash can be noticed. *)
From stdpp Require Import base list gmap.
From Coq Require Import NArith Lia.
From Verif Require Import Base Par Float Container MinHashIndex SpecIndex SpecScan Centroid SpecCentroid.
From Verif Require Import MinHashIndexThms MinHashIndexFacts2 ScanFacts CentroidFacts ExampleIndex.
Local Open Scope nat_scope.

(** Whatever the history and the band hash: if every stored signature that is similar enough shares
    a band with the query, the answer is that of the scan. *)
Theorem C77_scan {T} `{!EqDecision T} {Id} `{Countable Id}
    (k : container_kind) (bh : list T -> N) (nb bw : nat) (th : f64)
    (ops : list (op Id T)) (q : list T) :
  well_sized (nb * bw) (spec_map (nb * bw) ops) -> length q = nb * bw ->
  (forall id s, spec_map (nb * bw) ops !! id = Some s -> f64_ge (sim s q) th = true ->
     exists i, i < nb /\ share_band bw i s q) ->
  exists S, query (container k Id) bh (after k bh nb bw th ops) q = Some S /\
    forall id, id ∈ S <-> scan (spec_map (nb * bw) ops) th q id.
Proof. exact (scan_query k bh nb bw th ops q). Qed.

(** A threshold above [(bw - 1) / bw] guarantees it for all contents and queries. *)
Theorem C77_threshold {T} `{!EqDecision T} {Id} `{Countable Id}
    (k : container_kind) (bh : list T -> N) (nb bw : nat) (th : f64)
    (ops : list (op Id T)) (q : list T) :
  0 < nb -> 0 < bw -> (N.of_nat (nb * bw) <= 2 ^ 53)%N ->
  f64_valid th = true -> f64_gt th (band_bound bw) = true ->
  well_sized (nb * bw) (spec_map (nb * bw) ops) -> length q = nb * bw ->
  exists S, query (container k Id) bh (after k bh nb bw th ops) q = Some S /\
    forall id, id ∈ S <-> scan (spec_map (nb * bw) ops) th q id.
Proof. exact (threshold_query k bh nb bw th ops q). Qed.

(** [query_one] wants more than the threshold, so the bound itself will do. *)
Theorem C77_query_one {T} `{!EqDecision T} {Id} `{Countable Id}
    (k : container_kind) (bh : list T -> N) (nb bw : nat) (th : f64)
    (ops : list (op Id T)) (q : list T) (order : gset Id -> list Id) :
  0 < nb -> 0 < bw -> (N.of_nat (nb * bw) <= 2 ^ 53)%N ->
  f64_valid th = true -> f64_ge th (band_bound bw) = true ->
  well_sized (nb * bw) (spec_map (nb * bw) ops) -> length q = nb * bw -> is_order order ->
  exists r, query_one (container k Id) bh order (after k bh nb bw th ops) q = Some r /\
    scan_best (spec_map (nb * bw) ops) th q r.
Proof. exact (threshold_query_one k bh nb bw th ops q order). Qed.

(** With bands of one hash every positive threshold is above the bound. *)
Theorem C77_width_one {T} `{!EqDecision T} {Id} `{Countable Id}
    (k : container_kind) (bh : list T -> N) (nb : nat) (th : f64)
    (ops : list (op Id T)) (q : list T) :
  0 < nb -> (N.of_nat (nb * 1) <= 2 ^ 53)%N ->
  f64_valid th = true -> f64_gt th (f64_of_N 0) = true ->
  well_sized (nb * 1) (spec_map (nb * 1) ops) -> length q = nb * 1 ->
  exists S, query (container k Id) bh (after k bh nb 1 th ops) q = Some S /\
    forall id, id ∈ S <-> scan (spec_map (nb * 1) ops) th q id.
Proof.
  intros Hnb Hb Hv Hth. apply C77_threshold; [done|lia|done|done|].
  replace (band_bound 1) with (f64_of_N 0) by (vm_compute; reflexivity). done.
Qed.

(** The bound is sharp for every shape of index: with the threshold at the bound and a band hash
    without collisions there is an index and a query that misses what the scan finds. *)
Theorem C77_at_bound_refuted (k : container_kind) (bh : list N -> N) (nb bw : nat) :
  0 < nb -> 0 < bw -> (N.of_nat (nb * bw) <= 2 ^ 53)%N -> collision_free bw bh ->
  exists (ops : list (op N N)) (q : list N),
    length q = nb * bw /\ clean (nb * bw) ops /\
    query (container k N) bh (after k bh nb bw (band_bound bw) ops) q = Some ∅ /\
    scan (spec_map (nb * bw) ops) (band_bound bw) q 0%N.
Proof.
  intros Hnb Hbw Hb Hcf. exists [Insert 0%N (replicate (nb * bw) 0%N)], (spoilt nb bw).
  split; [by apply spoilt_length|].
  split; [split; [intros _; apply lookup_empty|done]|]. by apply sharp_query.
Qed.

(** Two bands of two hashes, threshold 3/4, an index with overwritten and removed documents; the
    hash that sends every band to the same value gives the same answer as an injective one. *)
Definition three_quarters : f64 := f64_div (f64_of_N 3) (f64_of_N 4).
Example C77_example :
  well_sized 4 (spec_map 4 dirty_ops) /\ f64_gt three_quarters (band_bound 2) = true /\
  elements <$> query (container KVec N) bh_injective
    (after KVec bh_injective 2 2 three_quarters dirty_ops) [1;2;3;4]%N = Some [2]%N /\
  elements <$> query (container KVec N) (fun _ => 5%N)
    (after KVec (fun _ => 5%N) 2 2 three_quarters dirty_ops) [1;2;3;4]%N = Some [2]%N /\
  query_one (container KVec N) (fun _ => 5%N) elements
    (after KVec (fun _ => 5%N) 2 2 half dirty_ops) [1;2;3;4]%N = Some (Some (2%N, three_quarters)) /\
  elements <$> query (container KVec N) bhx (after KVec bhx 4 1 half dirty_ops) [7;2;9;4]%N
    = Some [1; 4]%N.
Proof. split; [apply dirty_ops_sized|]. vm_compute. auto. Qed.

(** At the bound 1/2 document 1 is missed although it agrees with the query in two hashes of four. *)
Example C77_at_bound_example :
  elements <$> query (container KVec N) bhx
    (after KVec bhx 2 2 (band_bound 2) [Insert 0 [0;0;0;0]]%N) (spoilt 2 2) = Some [] /\
  spoilt 2 2 = [1;0;1;0]%N /\
  f64_ge (sim [0;0;0;0]%N (spoilt 2 2)) (band_bound 2) = true.
Proof. vm_compute. auto. Qed.

(** *** The unit tests of the repository, for every band hash *)

(** minhash_index.rs:921-969, [test_remove]: after these calls (each entry continues the history of
    the entry before) the query with this signature has this answer. *)
Definition remove_test_inserts : list (op N N) :=
  [ Insert 1 [1;1; 1;1; 1;1; 1;1]; Insert 2 [1;1; 1;1; 1;1; 1;1];
    Insert 3 [1;1; 1;1; 1;1; 2;2]; Insert 4 [1;1; 1;1; 1;1; 2;3];
    Insert 5 [2;2; 2;3; 3;3; 4;4];
    Insert 6 [3;3; 3;4; 4;4; 5;5]; Insert 7 [3;3; 3;4; 4;4; 5;6] ]%N.
Definition remove_test : list (list (op N N) * list N * list N) :=
  [ ([], [1;1; 1;1; 1;1; 1;1], [1;2;3;4]);
    ([Remove 1], [1;1; 1;1; 1;1; 1;1], [2;3;4]);
    ([Remove 1; Remove 2], [1;1; 1;1; 1;1; 1;1], [3;4]);
    ([Remove 1; Remove 2], [1;1; 1;1; 1;1; 2;2], [3;4]);
    ([Remove 1; Remove 2; Remove 5], [2;2; 2;3; 3;3; 4;4], []);
    ([Remove 1; Remove 2; Remove 5; Remove 7], [3;3; 3;4; 4;4; 5;5], [6]);
    ([Remove 1; Remove 2; Remove 5; Remove 7; Remove 6], [3;3; 3;4; 4;4; 5;6], []) ]%N.

(** The conditions of [C77_scan], and the answer of the scan, by computation. *)
Definition shares (nb bw : nat) (s q : list N) : bool :=
  existsb (fun i => bool_decide (nth_band bw i s = nth_band bw i q)) (seq 0 nb).
Definition scanned (nb bw : nat) (th : f64) (m : gmap N (list N)) (q ans : list N) : bool :=
  bool_decide (length q = nb * bw) &&
  forallb (fun p : N * list N => bool_decide (length p.2 = nb * bw) &&
    (if f64_ge (sim p.2 q) th then shares nb bw p.2 q && bool_decide (p.1 ∈ ans)
     else bool_decide (p.1 ∉ ans))) (map_to_list m) &&
  forallb (fun id => bool_decide (is_Some (m !! id))) ans.

Lemma scanned_query k bh nb bw th (ops : list (op N N)) q ans :
  scanned nb bw th (spec_map (nb * bw) ops) q ans = true ->
  query (container k N) bh (after k bh nb bw th ops) q = Some (list_to_set ans).
Proof.
  unfold scanned. rewrite !andb_true_iff, !forallb_forall.
  intros [[Hq%bool_decide_eq_true_1 Hm] Ha].
  assert (Hm' : forall id s, spec_map (nb * bw) ops !! id = Some s ->
    length s = nb * bw /\ if f64_ge (sim s q) th then shares nb bw s q = true /\ id ∈ ans else id ∉ ans).
  { intros id s Hs. specialize (Hm (id, s)). rewrite <- elem_of_list_In, elem_of_map_to_list in Hm.
    specialize (Hm Hs). simpl in Hm. apply andb_true_iff in Hm as [Hl%bool_decide_eq_true_1 Hm].
    split; [done|]. destruct (f64_ge (sim s q) th).
    - apply andb_true_iff in Hm as [Hm Hi%bool_decide_eq_true_1]. done.
    - by apply bool_decide_eq_true_1 in Hm. }
  destruct (C77_scan k bh nb bw th ops q) as (S & HS & Hin); [|done| |].
  - intros id s Hs. by apply (Hm' id s).
  - intros id s Hs Hge. destruct (Hm' id s Hs) as [Hl Hr]. rewrite Hge in Hr.
    destruct Hr as [Hr _]. unfold shares in Hr. apply existsb_exists in Hr as (i & Hi & Hb).
    apply in_seq in Hi. apply bool_decide_eq_true_1 in Hb. exists i. split; [lia|].
    intros j Hj. unfold nth_band in Hb. apply (f_equal (fun l => l !! (j - i * bw))) in Hb.
    rewrite !lookup_take, !lookup_drop in Hb by lia.
    by replace (i * bw + (j - i * bw)) with j in Hb by lia.
  - rewrite HS. f_equal. apply set_eq. intros id. rewrite Hin, elem_of_list_to_set. split.
    + intros (s & Hs & Hge). destruct (Hm' id s Hs) as [_ Hr]. rewrite Hge in Hr. apply Hr.
    + intros Hi. pose proof (Ha id) as Hd. rewrite <- elem_of_list_In in Hd.
      specialize (Hd Hi). apply bool_decide_eq_true_1 in Hd as [s Hs]. exists s. split; [done|].
      destruct (Hm' id s Hs) as [_ Hr]. by destruct (f64_ge (sim s q) th).
Qed.

Theorem C77_test_remove (k : container_kind) (bh : list N -> N) :
  Forall (fun t : list (op N N) * list N * list N =>
    query (container k N) bh (after k bh 4 2 half (remove_test_inserts ++ t.1.1)) t.1.2
    = Some (list_to_set t.2)) remove_test /\
  index_size (container k N) (after k bh 4 2 half (remove_test_inserts ++
    [Remove 1; Remove 2; Remove 5; Remove 7; Remove 6; Remove 3; Remove 4]%N)) = 0.
Proof.
  split.
  - unfold remove_test. repeat (apply Forall_cons_2; [apply scanned_query; vm_compute; reflexivity|]).
    apply Forall_nil_2.
  - unfold index_size. rewrite sigs_after. vm_compute. reflexivity.
Qed.

Lemma gt_ge x y : f64_gt x y = true -> f64_ge x y = true.
Proof.
  unfold f64_gt, f64_ge, SpecFloat.SFltb, SpecFloat.SFleb.
  destruct (SpecFloat.SFcompare y x) as [[| |]|]; done.
Qed.

Lemma one_nothing {T} `{!EqDecision T} k (bh : list T -> N) nb bw order (ops : list (op N T)) q :
  is_order order -> length q = nb * bw -> well_sized (nb * bw) (spec_map (nb * bw) ops) ->
  (forall id s, spec_map (nb * bw) ops !! id = Some s -> f64_ge (sim s q) half = false) ->
  query_one (container k N) bh order (after k bh nb bw half ops) q = Some None /\
  query (container k N) bh (after k bh nb bw half ops) q = Some ∅.
Proof.
  intros Ho Hq Hw Hn. split.
  - destruct (query_one_any k bh nb bw half ops q order) as (r & -> & Hr); try done.
    destruct r as [[id v]|]; [|done]. destruct Hr as (s & Hs & -> & Hg & _).
    apply gt_ge in Hg. by rewrite (Hn _ _ Hs) in Hg.
  - destruct (C77_scan k bh nb bw half ops q) as (S & -> & Hin); [done..| |].
    + intros id s Hs Hge. by rewrite (Hn _ _ Hs) in Hge.
    + f_equal. apply set_eq. intros id. rewrite Hin. split; [|set_solver].
      intros (s & Hs & Hge). by rewrite (Hn _ _ Hs) in Hge.
Qed.

Lemma one_self {T} `{!EqDecision T} k (bh : list T -> N) nb bw order (ops : list (op N T)) q id :
  is_order order -> 0 < nb -> 0 < bw -> (N.of_nat (nb * bw) <= 2 ^ 53)%N -> length q = nb * bw ->
  spec_map (nb * bw) ops = {[id := q]} ->
  query_one (container k N) bh order (after k bh nb bw half ops) q = Some (Some (id, f64_one)).
Proof.
  intros Ho Hnb Hbw Hb Hq Hm.
  assert (Hr1 : sim q q = f64_one) by (apply sim_refl; [nia|by rewrite Hq]).
  destruct (query_one_any k bh nb bw half ops q order) as (r & -> & Hr); try done.
  { intros id' s. rewrite Hm. by intros [<- <-]%lookup_singleton_Some. }
  rewrite Hm in Hr. destruct r as [[id' v]|].
  - destruct Hr as (s & [<- <-]%lookup_singleton_Some & -> & _). by rewrite Hr1.
  - specialize (Hr id q 0). rewrite lookup_singleton, Hr1 in Hr.
    specialize (Hr eq_refl Hnb (fun _ _ => eq_refl)). discriminate.
Qed.

(** minhash_index.rs:1087-1118, [test_duplidate_ids], for any signatures of which the first and the
    second, and the first and the third, are not more similar than the threshold. *)
Theorem C77_test_duplicate_ids {T} `{!EqDecision T} (k : container_kind) (bh : list T -> N)
    (nb bw : nat) (order : gset N -> list N) (s1 s4 s6 : list T) :
  is_order order -> 0 < nb -> 0 < bw -> (N.of_nat (nb * bw) <= 2 ^ 53)%N ->
  length s1 = nb * bw -> length s4 = nb * bw -> length s6 = nb * bw ->
  f64_ge (sim s4 s1) half = false -> f64_ge (sim s6 s1) half = false ->
  let one := query_one (container k N) bh order in
  let at_ ops := after k bh nb bw half ops in
  one (at_ [Insert 1%N s1]) s1 = Some (Some (1%N, f64_one)) /\
  index_size (container k N) (at_ [Insert 1%N s1; Insert 1%N s4]) = 1 /\
  one (at_ [Insert 1%N s1; Insert 1%N s4]) s1 = Some None /\
  one (at_ [Insert 1%N s1; Insert 1%N s4]) s4 = Some (Some (1%N, f64_one)) /\
  index_size (container k N) (at_ [Insert 1%N s1; Insert 1%N s4; Insert 6%N s6]) = 2 /\
  let m := at_ [Insert 1%N s1; Insert 1%N s4; Insert 6%N s6; Remove 1%N] in
  query (container k N) bh m s1 = Some ∅ /\ one m s1 = Some None.
Proof.
  intros Ho Hnb Hbw Hb H1 H4 H6 H41 H61 one at_. subst one at_. cbn beta zeta.
  assert (M1 : spec_map (nb * bw) [Insert 1%N s1] = {[1%N := s1]}).
  { unfold spec_map. cbn [fold_left spec_step]. by rewrite decide_True, insert_empty. }
  assert (M4 : spec_map (nb * bw) [Insert 1%N s1; Insert 1%N s4] = {[1%N := s4]}).
  { unfold spec_map. cbn [fold_left spec_step]. by rewrite !decide_True, insert_insert, insert_empty. }
  assert (M6 : spec_map (nb * bw) [Insert 1%N s1; Insert 1%N s4; Insert 6%N s6]
               = <[6%N := s6]> {[1%N := s4]}).
  { unfold spec_map. cbn [fold_left spec_step]. by rewrite !decide_True, insert_insert, insert_empty. }
  assert (MR : spec_map (nb * bw) [Insert 1%N s1; Insert 1%N s4; Insert 6%N s6; Remove 1%N]
               = {[6%N := s6]}).
  { unfold spec_map. cbn [fold_left spec_step]. rewrite !decide_True, insert_insert, insert_empty by done.
    rewrite delete_insert_ne by done. by rewrite delete_singleton, insert_empty. }
  assert (Hw : forall ops id (s : list T), spec_map (nb * bw) ops = {[id := s]} -> length s = nb * bw ->
    well_sized (nb * bw) (spec_map (Id := N) (nb * bw) ops)).
  { intros ops id s -> Hl id' s'. by intros [_ <-]%lookup_singleton_Some. }
  split; [by apply one_self|].
  split; [unfold index_size; by rewrite sigs_after, M4, map_size_singleton|].
  split; [apply one_nothing; [done|done|exact (Hw _ _ _ M4 H4)|]; intros id s; rewrite M4;
    by intros [_ <-]%lookup_singleton_Some|].
  split; [by apply one_self|].
  split; [unfold index_size; rewrite sigs_after, M6, map_size_insert_None, map_size_singleton; done|].
  apply and_comm, one_nothing; [done|done|exact (Hw _ _ _ MR H6)|].
  intros id s. rewrite MR. by intros [_ <-]%lookup_singleton_Some.
Qed.

(** [x] occurs more often than anything else. *)
Definition only_mode (x : N) (l : list N) : bool :=
  forallb (fun y => bool_decide (y = x) || (occurrences y l <? occurrences x l)) l.

Lemma only_mode_unique x y l : only_mode x l = true -> is_mode y l -> y = x.
Proof.
  unfold only_mode. rewrite forallb_forall. intros Ho [Hy Hm].
  specialize (Ho y). rewrite <- elem_of_list_In in Ho. specialize (Ho Hy).
  apply orb_true_iff in Ho as [Ho|Ho]; [by apply bool_decide_eq_true_1 in Ho|].
  apply Nat.ltb_lt in Ho. specialize (Hm x). lia.
Qed.

Lemma centroid_only order (sigs : list (list N)) (c : list N) : is_map_order order ->
  sigs ≠ [] -> forallb (fun s => length s =? length c) sigs = true ->
  forallb (fun i => only_mode (nth i c 0%N) (omap (fun s => s !! i) sigs)) (seq 0 (length c)) = true ->
  minhash_centroid order sigs = Some c.
Proof.
  intros Ho Hne Hl Hm. rewrite forallb_forall in Hl, Hm.
  assert (Hl' : forall s, s ∈ sigs -> length s = length c).
  { intros s Hs%elem_of_list_In. by apply Nat.eqb_eq, Hl. }
  pose proof (hash_centroid_spec order sigs Ho) as Hc.
  destruct (minhash_centroid order sigs) as [c'|].
  - destruct Hc as (s0 & Hs0 & Hlen & _ & Hmode). f_equal.
    assert (Hlc : length c' = length c) by (rewrite Hlen; apply Hl'; by eapply elem_of_list_lookup_2).
    apply list_eq. intros i. destruct (c' !! i) as [x|] eqn:E.
    + pose proof (lookup_lt_Some _ _ _ E) as Hi. specialize (Hmode _ _ E).
      rewrite Hlc in Hi. specialize (Hm i). rewrite in_seq in Hm. specialize (Hm ltac:(lia)).
      rewrite (only_mode_unique _ _ _ Hm Hmode). symmetry.
      rewrite (nth_lookup c i 0%N). destruct (lookup_lt_is_Some_2 c i Hi) as [y Hy]. by rewrite Hy.
    + apply lookup_ge_None in E. symmetry. apply lookup_ge_None. lia.
  - destruct Hc as [->|(s0 & Hs0 & Hex)]; [done|]. exfalso.
    apply Exists_exists in Hex as (s & Hs & Hlt).
    rewrite (Hl' s Hs), (Hl' s0) in Hlt by (by eapply elem_of_list_lookup_2). lia.
Qed.

(** minhash/mod.rs:297-311 and minhash/min_hasher64.rs:157-168, the centroids, for every order in
    which the counts of a position may be enumerated. *)
Theorem C77_test_centroids (order : nat -> list (N * nat) -> list (N * nat)) : is_map_order order ->
  minhash_centroid order
    [[1;2;3;4;5]; [1;2;3;40;51]; [1;20;3;40;52]; [1;2;3;50;55]; [1;2;3;60;55]]%N
    = Some [1;2;3;40;55]%N /\
  minhash_centroid order [[1;2;3;4]; [1;2;3;40]; [1;20;3;40]; [1;2;3;50]]%N = Some [1;2;3;40]%N.
Proof. intros Ho. split; apply centroid_only; done. Qed.

Example C77_tests_example : is_order (Id := N) elements /\ is_map_order (E := N * nat) (fun _ l => l) /\
  f64_ge (sim [7;8;3;9] [1;2;3;4])%N half = false.
Proof. split; [by intros s|]. split; [by intros i l|]. vm_compute. reflexivity. Qed.

Print Assumptions C77_scan.
Print Assumptions C77_threshold.
Print Assumptions C77_query_one.
Print Assumptions C77_width_one.
Print Assumptions C77_at_bound_refuted.
Print Assumptions C77_test_remove.
Print Assumptions C77_test_duplicate_ids.
Print Assumptions C77_test_centroids.
