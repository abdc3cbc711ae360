(** Property C107: what the tables of a simhash index hold and what a query costs. The width [W] is any
    number above 1; [insertions ops] are all insertions of a history in order, [same_blocks W nb x y] is
    the number of blocks in which [x] and [y] have the same bits (SpecTables.v). *)
From stdpp Require Import base list gmap fin_maps fin_sets.
From Coq Require Import NArith Lia.
From Verif Require Import Base Permutation SimHashIndex SpecSimHash SpecTuples SpecTables TableFacts PropsSimHash.
Local Open Scope nat_scope.

(** A bucket holds the ids of all insertions ever made whose signature has its key, in order and with
    repetitions; there are no empty buckets. *)
Theorem C107_bucket {Id} `{Countable Id} (W nb d : nat) (ops : list (sop Id)) (m : sindex Id) (t : table Id) (key : N) :
  safter W nb d ops = Some m -> t ∈ hash_tables m ->
  t_table t !! key =
    match (filter (fun e => N.land e.2 (simple_mask (t_perm t)) = key) (insertions ops)).*1 with
    | [] => None | l => Some l end.
Proof. intros E Ht. pose proof (after_holds W nb d ops m E) as Hh. rewrite Forall_forall in Hh. exact (Hh t Ht key). Qed.

(** So every table has one entry for each insertion ever made. *)
Theorem C107_entries {Id} `{Countable Id} (W nb d : nat) (ops : list (sop Id)) (m : sindex Id) (t : table Id) :
  safter W nb d ops = Some m -> t ∈ hash_tables m ->
  concat (map_to_list (t_table t)).*2 ≡ₚ (insertions ops).*1.
Proof. intros E Ht. pose proof (after_entries W nb d ops m E) as Hh. rewrite Forall_forall in Hh. exact (Hh t Ht). Qed.

(** The number of tables, and the exact number of distances that a query computes. *)
Theorem C107_comparisons {Id} `{Countable Id} (W nb d : nat) (ops : list (sop Id)) (m : sindex Id) (q : N) :
  1 < W -> d <= nb <= W -> safter W nb d ops = Some m ->
  length (hash_tables m) = binom nb (nb - d) /\
  comparisons m q = sum_list ((fun e => binom (same_blocks W nb q e.2) (nb - d)) <$> insertions ops).
Proof.
  intros HW Hd E. split; [exact (after_length W nb d ops m HW Hd E)|exact (after_comparisons W nb d ops m q HW Hd E)].
Qed.

(** What one insertion contributes: nothing if fewer than [nb - d] blocks agree, everything for an equal
    signature, and at least this much for a signature at a distance of at most [d]. *)
Theorem C107_contribution (W nb d : nat) (x y : N) : d <= nb <= W ->
  binom (same_blocks W nb x x) (nb - d) = binom nb (nb - d) /\
  (same_blocks W nb x y < nb - d <-> binom (same_blocks W nb x y) (nb - d) = 0) /\
  binom (same_blocks W nb x y) (nb - d) <= binom nb (nb - d) /\
  (hamming W x y <= d ->
   1 <= binom (nb - hamming W x y) (nb - d) <= binom (same_blocks W nb x y) (nb - d)).
Proof.
  intros Hd. destruct (same_blocks_near W nb x y ltac:(lia)) as [H1 H2]. split; [by rewrite same_blocks_refl|]. split; [|split].
  - split; [apply binom_small|]. intros E. destruct (decide (nb - d <= same_blocks W nb x y)) as [Hle|]; [|lia].
    apply binom_pos in Hle. lia.
  - by apply binom_mono.
  - intros Hh. split; [apply binom_pos; lia|by apply binom_mono].
Qed.

(** Inserting a document once more changes no answer, but every query that looks at it pays again. *)
Theorem C107_again {Id} `{Countable Id} (W nb d k : nat) (ops : list (sop Id)) (id : Id) (s : N) :
  1 < W -> d <= nb <= W -> Forall (sop_fits W) ops -> (s < 2 ^ N.of_nat W)%N ->
  exists m1 m2, safter W nb d (ops ++ [SInsert id s]) = Some m1 /\
    safter W nb d (ops ++ replicate (S k) (SInsert id s)) = Some m2 /\
    (forall q, (q < 2 ^ N.of_nat W)%N -> is_Some (squery m1 q) /\ squery m2 q = squery m1 q) /\
    forall q, comparisons m2 q = comparisons m1 q + k * binom (same_blocks W nb q s) (nb - d).
Proof.
  intros HW Hd Hops Hs.
  assert (F1 : Forall (sop_fits W) (ops ++ [SInsert id s])) by (apply Forall_app; split; [done|by repeat constructor]).
  assert (F2 : Forall (sop_fits W) (ops ++ replicate (S k) (SInsert id s))).
  { apply Forall_app. split; [done|]. by apply Forall_replicate. }
  destruct (C28_query_exact W nb d _ 0 HW Hd F1) as (m1 & S1 & E1 & _); [apply N.neq_0_lt_0, N.pow_nonzero; lia|].
  destruct (C28_query_exact W nb d _ 0 HW Hd F2) as (m2 & S2 & E2 & _); [apply N.neq_0_lt_0, N.pow_nonzero; lia|].
  exists m1, m2. split; [done|]. split; [done|]. split.
  - intros q Hq. destruct (C28_query_exact W nb d _ q HW Hd F1 Hq) as (m1' & A1 & E1' & Q1 & _ & H1).
    destruct (C28_query_exact W nb d _ q HW Hd F2 Hq) as (m2' & A2 & E2' & Q2 & _ & H2).
    rewrite E1 in E1'. injection E1' as <-. rewrite E2 in E2'. injection E2' as <-. rewrite Q1, Q2. split; [eauto|]. f_equal.
    apply set_eq. intros x. rewrite H1, H2, spec_repeat. done.
  - intros q. rewrite (after_comparisons W nb d _ m1 q HW Hd E1), (after_comparisons W nb d _ m2 q HW Hd E2).
    rewrite !insertions_app, insertions_repeat, !fmap_app, !sum_app', fmap_replicate, sum_replicate. cbn [snd].
    unfold insertions. cbn. lia.
Qed.

(** For how many of the [2 ^ W] queries a table compares a given signature, and the sum of the distances
    computed over all queries: a table with keys of [w] bits lets one query in [2 ^ w] look at an entry. *)
Theorem C107_all_queries {Id} `{Countable Id} (W nb d : nat) (ops : list (sop Id)) (m : sindex Id) (vs : list N) :
  1 < W -> d <= nb <= W -> safter W nb d ops = Some m ->
  NoDup vs -> (forall v, v ∈ vs <-> (v < 2 ^ N.of_nat W)%N) ->
  (forall t s, t ∈ hash_tables m ->
     length (filter (fun q => N.land q (simple_mask (t_perm t)) = N.land s (simple_mask (t_perm t))) vs) =
       2 ^ (W - width (t_perm t))) /\
  sum_list (comparisons m <$> vs) =
    length (insertions ops) * sum_list ((fun t => 2 ^ (W - width (t_perm t))) <$> hash_tables m).
Proof.
  intros HW Hd E Hnd Hvs. split; [|exact (after_total W nb d ops m vs HW Hd E Hnd Hvs)].
  intros t s Ht. destruct (after_masks W nb d ops m t HW Hd E Ht) as [HM ->]. exact (meeting_count W s _ vs Hnd Hvs HM).
Qed.

Example C107_example : Forall (sop_fits 64) ex_sops /\ insertions ex_sops =
    [(1, 1023); (2, 0); (3, 4095); (4, 12345678901234567890); (2, 65535); (6, 1024); (3, 1535)]%N /\
  map (fun e => same_blocks 64 6 511 e.2) (insertions ex_sops) = [5; 5; 4; 0; 4; 4; 5] /\
  (m ← safter 64 6 3 ex_sops; Some (length (hash_tables m), comparisons m 511%N, size <$> squery m 511%N)) =
    Some (20, 42, Some 2) /\ map (fun a => binom a 3) [5; 5; 4; 0; 4; 4; 5] = [10; 10; 4; 0; 4; 4; 10].
Proof. split; [exact ex_sops_fit|]. vm_compute. split_and!; reflexivity. Qed.
Print Assumptions C107_bucket.
Print Assumptions C107_entries.
Print Assumptions C107_comparisons.
Print Assumptions C107_contribution.
Print Assumptions C107_again.

(** Eight bits in four blocks: 5 entries, 6 tables with keys of 4 bits, 256 queries. *)
Example C107_all_queries_example :
  let ops := [SInsert 1 3; SInsert 2 200; SInsert 1 3; SParBulkInsertPairs [] [(3, 7); (2, 255)]]%N in
  let vs := N.of_nat <$> seq 0 256 in
  (m ← safter 8 4 2 ops; Some (sum_list (comparisons m <$> vs), width ∘ t_perm <$> hash_tables m)) =
    Some (480, [4; 4; 4; 4; 4; 4]) /\ 480 = length (insertions ops) * (6 * 2 ^ 4) /\ NoDup vs.
Proof.
  split; [vm_compute; reflexivity|]. split; [vm_compute; reflexivity|]. apply NoDup_fmap; [intros x y; lia|apply NoDup_seq].
Qed.
Print Assumptions C107_all_queries.

(** A query may compute more distances than there are pairs of a document and a table. *)
Theorem C107_one_per_document_refuted :
  exists (ops : list (sop N)) m q, safter 64 6 3 ops = Some m /\ (q < 2 ^ N.of_nat 64)%N /\
    size (sspec_map ops) = 1 /\ size (sspec_map ops) * length (hash_tables m) < comparisons m q.
Proof.
  destruct (safter 64 6 3 (replicate 3 (SInsert 1%N 7%N))) as [m|] eqn:E.
  - exists (replicate 3 (SInsert 1%N 7%N)), m, 7%N. split; [done|]. split; [reflexivity|]. split; [reflexivity|].
    destruct (C107_comparisons 64 6 3 (replicate 3 (SInsert 1%N 7%N)) m 7 ltac:(lia) ltac:(lia) E) as [-> ->].
    rewrite insertions_repeat, fmap_replicate, sum_replicate. cbn [snd]. rewrite same_blocks_refl.
    change (size (sspec_map (replicate 3 (SInsert 1%N 7%N)))) with 1. cbn. lia.
  - exfalso. destruct (C28_query_exact 64 6 3 (replicate 3 (SInsert 1%N 7%N)) 0 ltac:(lia) ltac:(lia)) as (m & ? & Em & _);
      [repeat constructor|reflexivity|]. rewrite E in Em. discriminate.
Qed.
Print Assumptions C107_one_per_document_refuted.
