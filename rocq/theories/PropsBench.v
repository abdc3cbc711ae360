(** Property theorems C91: the benchmarks. *)
From stdpp Require Import base list gmap.
From Coq Require Import NArith ZArith Lia.
From Verif Require SimHash SimHashFacts.
From Verif Require Import Base Float FloatFacts F64Facts Container MinHashIndex SpecIndex MinHasher MinHasherFacts
  SimHashBits SpecSimHash BitsFacts SimHashIndex Bench BenchFacts.
Local Open Scope nat_scope.

(** ** minhash_million_items_most_similar: the assertion never fails and nothing panics; the scan
    finds similarity 1, and so does the index, at an item with the signature of the first. *)
Theorem C91_minhash {U} (hash : U -> N) (draws : N -> nat -> nat -> N) (bh : list N -> N)
    (order : gset Z -> list Z) (sched : list nat) (items : list (list U)) (first : list U) :
  is_order order -> head items = Some first ->
  exists i item, bench_minhash hash draws bh order sched items = Some (Some f64_one, (Z.of_nat i, f64_one)) /\
    items !! i = Some item /\
    create_signature MinHasher32 hash (new_with_hasher draws 250) item =
    create_signature MinHasher32 hash (new_with_hasher draws 250) first.
Proof.
  intros Ho Hh. unfold bench_minhash, bench_signatures.
  destruct (mapM_total (create_signature MinHasher32 hash (new_with_hasher draws 250)) (fun s => length s = 250) items)
    as (sigs & -> & H2 & Hl).
  { intros t. destruct (signature_shape hash draws 250 3%N MinHasher32 t) as (s & Hs & Hn & _). by exists s. }
  cbn [mbind option_bind]. destruct items as [|it items]; [done|]. cbn in Hh. injection Hh as ->.
  apply Forall2_cons_inv_l in H2 as (s0 & sigs' & E0 & H2' & ->).
  assert (Hlen : length (first :: items) = length (s0 :: sigs')) by (cbn; by rewrite (Forall2_length _ _ _ H2')).
  rewrite Hlen. set (sigs := s0 :: sigs') in *.
  assert (Hsz : (N.of_nat (50 * 5) <= 2 ^ 53)%N) by (vm_compute; discriminate).
  assert (Hv : f64_valid bench_threshold = true) by (vm_compute; reflexivity).
  assert (Hth : f64_gt f64_one bench_threshold = true) by (vm_compute; reflexivity).
  pose proof (bench_step bh sched 50 5 bench_threshold sigs ltac:(lia) ltac:(lia) Hsz Hl) as Hst. unfold step in Hst. rewrite Hst. clear Hst.
  cbn [fst snd]. change (head sigs) with (Some s0). cbn [mbind option_bind].
  rewrite (bench_scan 50 5 sigs ltac:(lia) ltac:(lia) Hsz Hl s0 eq_refl). cbn [mbind option_bind].
  destruct (bench_query bh order sched 50 5 bench_threshold sigs ltac:(lia) ltac:(lia) Hsz Hv Hth Ho Hl s0 eq_refl)
    as (i & -> & Hi). cbn [mbind option_bind].
  destruct (Forall2_lookup_r (fun a b => create_signature MinHasher32 hash (new_with_hasher draws 250) a = Some b)
    (first :: items) sigs i s0) as (item & Hit & Es).
  { by apply List.Forall2_cons. } { done. }
  exists i, item. split; [done|]. split; [done|]. by rewrite E0.
Qed.

(** Without items [signatures.first().unwrap()] panics. *)
Theorem C91_empty {U} (hash : U -> N) (draws : N -> nat -> nat -> N) (bh : list N -> N)
    (order : gset Z -> list Z) (sched : list nat) :
  bench_minhash hash draws bh order sched ([] : list (list U)) = None /\
  bench_simhash hash order sched ([] : list (list U)) = None.
Proof.
  split; [apply minhash_empty|exact (simhash_run_empty 128 12 9 hash order sched)].
Qed.

(** ** simhash_million_items_most_similar: the assertion never fails and the index finds
    distance 0 at an item with the signature of the first; the scan finds the largest distance. *)
Theorem C91_simhash {U} (hash : U -> N) (order : gset Z -> list Z) (sched : list nat) (items : list (list U))
    (first : list U) :
  is_order order -> head items = Some first ->
  exists sigs s0 d i, Forall2 (fun t s => SimHash.create_signature 128 128 hash t = Some s) items sigs /\
    head sigs = Some s0 /\
    bench_simhash hash order sched items = Some (Some d, (Z.of_nat i, 0)) /\
    sigs !! i = Some s0 /\
    (exists s, s ∈ sigs /\ d = hamming 128 s0 s) /\
    (forall s, s ∈ sigs -> hamming 128 s0 s <= d) /\
    (d = 0 <-> forall s, s ∈ sigs -> s = s0).
Proof.
  intros Ho Hh.
  exact (simhash_run_spec 128 12 9 hash order sched items first ltac:(lia) ltac:(lia) ltac:(lia) Ho Hh).
Qed.

(** So the scan, which is there to be compared with the search for the most similar item, finds
    the least similar one. *)
Theorem C91_scan_refuted : exists (hash : N -> N) (order : gset Z -> list Z) (items : list (list N)) d i,
  bench_simhash hash order [] items = Some (Some d, (i, 0)) /\ 0 < d.
Proof.
  destruct (C91_simhash (fun u => u) elements [] [[]; [5%N]] [] ltac:(by intros s) eq_refl)
    as (sigs & s0 & d & i & H2 & Hh & Hb & _ & _ & Hmax & _).
  exists (fun u => u), elements, [[]; [5%N]], d, (Z.of_nat i). split; [exact Hb|].
  apply Forall2_cons_inv_l in H2 as (s & l & E & H2 & ->). cbn in Hh. injection Hh as ->.
  apply Forall2_cons_inv_l in H2 as (s' & l' & E' & H2 & ->).
  specialize (Hmax s' ltac:(right; by left)).
  assert (Es : Some s0 = Some 0%N) by (rewrite <- E; vm_compute; reflexivity). injection Es as ->.
  assert (Es' : Some s' = Some 340282366920938463463374607431768211450%N) by (rewrite <- E'; vm_compute; reflexivity).
  injection Es' as ->.
  assert (H : hamming 128 0 340282366920938463463374607431768211450 = 126) by (vm_compute; reflexivity). lia.
Qed.

(** ** Example: three items, the last equal to the first up to order; the scan of the minhash
    benchmark on the same items. *)
Example C91_example :
  is_order (elements : gset Z -> list Z) /\
  head [[1%N; 2%N]; [7%N]; [2%N; 1%N]] = Some [1%N; 2%N] /\
  minhash_scan [1; 2; 3; 4]%N [[1; 2; 3; 4]; [1; 2; 4; 3]; [1; 2; 3; 5]]%N = Some (Some f64_one) /\
  simhash_scan 5 [5; 4; 7; 8]%N = Some 3.
Proof. split; [by intros s|]. vm_compute. split_and!; reflexivity. Qed.

(** The threshold is the double nearest to 0.7: m * 2^-53 with |10 m - 7 * 2^53| <= 5. *)
Theorem C91_threshold : exists m : positive,
  bench_threshold = SpecFloat.S754_finite false m (-53) /\ (Z.abs (10 * Z.pos m - 7 * 2 ^ 53) <= 5)%Z.
Proof. exists 6305039478318694%positive. split; vm_compute; [reflexivity|discriminate]. Qed.

Print Assumptions C91_minhash.
Print Assumptions C91_empty.
Print Assumptions C91_simhash.
Print Assumptions C91_scan_refuted.
Print Assumptions C91_threshold.
