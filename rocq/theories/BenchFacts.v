(** Proofs about the benchmarks. *)
From stdpp Require Import base list gmap.
From Coq Require Import NArith ZArith Reals Lra Lia.
From Verif Require SimHash SimHashFacts.
From Verif Require Import Base Float FloatFacts F64Facts Container ContainerFacts Similarity MinHashIndex SpecIndex
  SimilarityFacts MinHashIndexFacts MinHashIndexFacts2 MinHashIndexFacts3 MinHashIndexThms SimilarityThms
  MinHasher MinHasherFacts SimHashBits SpecSimHash BitsFacts SimHashIndex SimHashIndexFacts Bench.
Local Open Scope nat_scope.

Lemma bench_ids_nodup n : NoDup (bench_ids n).
Proof. apply NoDup_fmap_2; [intros x y; lia|apply NoDup_seq]. Qed.

Lemma bench_ids_length n : length (bench_ids n) = n.
Proof. unfold bench_ids. by rewrite fmap_length, seq_length. Qed.

Lemma bench_zip {A} (l : list A) id (s : A) :
  (id, s) ∈ zip (bench_ids (length l)) l <-> exists i, id = Z.of_nat i /\ l !! i = Some s.
Proof.
  rewrite elem_of_list_lookup. split.
  - intros [j Hj]. apply lookup_zip_with_Some in Hj as (x0 & s0 & Heq & Hj & Hs); injection Heq as <- <-.
    apply list_lookup_fmap_Some in Hj as (x & [-> Hlt]%lookup_seq & Hx). eauto.
  - intros (i & -> & Hs). exists i. apply lookup_zip_with_Some. exists (Z.of_nat i), s. split_and!; [done| |done].
    unfold bench_ids. rewrite list_lookup_fmap. apply lookup_lt_Some in Hs as Hlt. rewrite lookup_seq_lt by lia. done.
Qed.

Lemma bench_keys {A} (l : list A) : (zip (bench_ids (length l)) l).*1 = bench_ids (length l).
Proof. apply fst_zip. by rewrite bench_ids_length. Qed.

Lemma mapM_total {A B} (f : A -> option B) (P : B -> Prop) l :
  (forall a, exists b, f a = Some b /\ P b) -> exists k, mapM f l = Some k /\ Forall2 (fun a b => f a = Some b) l k /\ Forall P k.
Proof.
  intros H. induction l as [|a l (k & Hk & H2 & HP)]; [by exists []|].
  destruct (H a) as (b & Hb & Hp). exists (b :: k). cbn. rewrite Hb. cbn. rewrite Hk. cbn.
  split; [done|]. split; [by apply List.Forall2_cons|by apply List.Forall_cons].
Qed.

(** No similarity lies above 1. *)
Lemma sim_top (s q : list N) : 0 < length s -> (N.of_nat (length s) <= 2 ^ 53)%N ->
  f64_gt f64_one (sim s q) = false -> sim s q = f64_one.
Proof.
  intros Hs0 Hsb Hmax. pose proof (sim_good s q Hs0 Hsb) as Hg. pose proof (sim_range s q Hs0) as Hb.
  assert (~ (rnd64 (IZR (Z.of_nat (agreements s q)) / IZR (Z.of_nat (length s))) < 1)%R) as Hn.
  { intros Hlt. unfold f64_gt in Hmax. apply not_true_iff_false in Hmax. apply Hmax.
    by apply (good_ltb 53 1024 _ _ _ _ Hg one_good). }
  assert (rnd64 (IZR (Z.of_nat (agreements s q)) / IZR (Z.of_nat (length s))) = 1%R) as E1 by lra.
  rewrite E1 in Hg. eapply good64_inj; [|exact Hg|exact one_good]. lra.
Qed.

Section MinHash.
Context (bh : list N -> N) (order : gset Z -> list Z) (sched : list nat).
Context (nb bw : nat) (th : f64) (sigs : list (list N)).
Context (Hnb : 0 < nb) (Hbw : 0 < bw) (Hsz : (N.of_nat (nb * bw) <= 2 ^ 53)%N)
        (Hv : f64_valid th = true) (Hth : f64_gt f64_one th = true).
Context (Ho : is_order order) (Hl : Forall (fun s => length s = nb * bw) sigs).
Notation K := (container KHashSet Z).
Notation op := (ParBulkInsert sched (bench_ids (length sigs)) sigs : op Z N).

Lemma bench_accepted : bulk_rejected (nb * bw) (bench_ids (length sigs)) sigs = false.
Proof.
  unfold bulk_rejected. destruct sigs as [|s0 l] eqn:El; [done|].
  apply Forall_cons in Hl as Hs. destruct Hs as [Hs _].
  apply orb_false_iff. split; [by apply bool_decide_eq_false_2; intros H|].
  apply bool_decide_eq_false_2. rewrite <- El in *. rewrite Exists_exists. intros ([i s] & Hin & Hlt).
  apply elem_of_zip_r in Hin. rewrite Forall_forall in Hl. apply Hl in Hin. simpl in Hlt. lia.
Qed.

Lemma bench_map : spec_map (nb * bw) [op] = insert_pairs (zip (bench_ids (length sigs)) sigs) ∅.
Proof. unfold spec_map. cbn [fold_left spec_step]. by rewrite bench_accepted. Qed.

Lemma bench_lookup id s : spec_map (nb * bw) [op] !! id = Some s <-> exists i, id = Z.of_nat i /\ sigs !! i = Some s.
Proof.
  rewrite bench_map, <- bench_zip. split.
  - by intros [Hin|[Hn' _]]%insert_pairs_lookup; [|rewrite lookup_empty in Hn'].
  - apply insert_pairs_lookup_nodup. rewrite bench_keys. apply bench_ids_nodup.
Qed.

Lemma bench_step : step K bh (new_index K nb bw th) op = (after KHashSet bh nb bw th [op], OUnit).
Proof.
  pose proof (step_inv K (container_laws_all KHashSet) bh nb bw th _ _ op (after_inv KHashSet bh nb bw th [])) as [_ Hout].
  cbn [spec_out] in Hout. rewrite bench_accepted in Hout.
  change (after KHashSet bh nb bw th []) with (new_index (T := N) K nb bw th) in Hout.
  change (after KHashSet bh nb bw th [op]) with (step K bh (new_index K nb bw th) op).1.
  destruct (step _ _ _ _) as [m o]. cbn in *. by subst.
Qed.

Lemma bench_query first : head sigs = Some first ->
  exists i, query_one K bh order (after KHashSet bh nb bw th [op]) first = Some (Some (Z.of_nat i, f64_one)) /\
    sigs !! i = Some first.
Proof.
  intros Hh. assert (H0 : sigs !! 0 = Some first) by (by destruct sigs).
  assert (Hlen : forall i s, sigs !! i = Some s -> length s = nb * bw).
  { intros i s Hi. rewrite Forall_forall in Hl. apply Hl. by eapply elem_of_list_lookup_2. }
  assert (Hself : spec_map (nb * bw) [op] !! 0%Z = Some first) by (apply bench_lookup; by exists 0).
  assert (Hs1 : sim first first = f64_one).
  { apply sim_refl; rewrite (Hlen _ _ H0); [nia|done]. }
  destruct (query_one_any KHashSet bh nb bw th [op] first order) as (r & -> & Hr); [done| |by eapply Hlen|done|].
  { intros id s Hs. apply bench_lookup in Hs as (i & _ & Hi). by eapply Hlen. }
  destruct r as [[id v]|].
  - destruct Hr as (s & Hs & -> & _ & Hmax). apply bench_lookup in Hs as (i & -> & Hi).
    specialize (Hmax 0%Z first 0 Hself Hnb ltac:(intros j Hj; done)). rewrite Hs1 in Hmax.
    assert (E : sim s first = f64_one).
    { apply sim_top; [rewrite (Hlen _ _ Hi); nia|by rewrite (Hlen _ _ Hi)|done]. }
    exists i. rewrite E. split; [done|]. rewrite Hi. f_equal.
    apply sim_one_iff; [|rewrite (Hlen _ _ Hi); nia|by rewrite (Hlen _ _ Hi)|done].
    by rewrite (Hlen _ _ Hi), (Hlen _ _ H0).
  - exfalso. specialize (Hr 0%Z first 0 Hself Hnb ltac:(intros j Hj; done)). rewrite Hs1 in Hr. congruence.
Qed.

Lemma bench_scan first : head sigs = Some first -> minhash_scan first sigs = Some (Some f64_one).
Proof.
  intros Hh. assert (H0 : first ∈ sigs) by (destruct sigs; [done|]; injection Hh as ->; by left).
  assert (Hlen : forall s, s ∈ sigs -> length s = nb * bw) by (by apply Forall_forall).
  unfold minhash_scan.
  assert (E : mapM (compute_minhash_similarity first) sigs = Some (sim first <$> sigs)).
  { apply mapM_Some. apply Forall2_fmap_r, Forall_Forall2_diag, Forall_forall. intros s Hs.
    apply similarity_sim. by rewrite !Hlen. }
  rewrite E. cbn [mbind option_bind].
  assert (Hf0 : 0 < length first) by (rewrite Hlen by done; nia).
  assert (Hfb : (N.of_nat (length first) <= 2 ^ 53)%N) by (by rewrite Hlen).
  destruct (max_by_unwrap_spec f64_partial_cmp key64 (sim first <$> sigs)) as (r & -> & Hr).
  { intros x y Hx Hy. apply elem_of_list_fmap in Hx as (s & -> & Hs). apply elem_of_list_fmap in Hy as (s' & -> & Hs').
    apply cmp_key64; try apply sim_valid; eapply good64_not_nan, sim_good; done. }
  destruct r as [p|]; [|exfalso; apply fmap_nil_inv in Hr; rewrite Hr in H0; by apply elem_of_nil in H0].
  destruct Hr as [Hp Hmax]. f_equal. f_equal. apply elem_of_list_fmap in Hp as (s & -> & Hs).
  specialize (Hmax (sim first first) ltac:(by apply elem_of_list_fmap_1)).
  rewrite sim_refl in Hmax by done.
  apply sim_top; [done|done|]. apply not_true_iff_false. intros Hgt.
  destruct (gt_not_nan _ _ Hgt) as [Hn1 Hn2].
  apply gt_key in Hgt; [lra|reflexivity|apply sim_valid|done|done].
Qed.
End MinHash.

Lemma max_by_nat (l : list nat) : l <> [] ->
  exists d, max_by Nat.compare l = Some d /\ d ∈ l /\ forall y, y ∈ l -> y <= d.
Proof.
  destruct l as [|x l]; [done|]. intros _. cbn [max_by]. eexists. split; [done|].
  apply (max_by_from_nat (container KHashSet Z)). apply container_laws_all.
Qed.

Section SimHash.
Context (W nb d : nat) (order : gset Z -> list Z) (sched : list nat) (sigs : list N).
Context (HW : 1 < W) (Hd : 0 < d) (Hnb : d <= nb <= W) (Ho : is_order order)
        (Hf : Forall (fun s => (s < 2 ^ N.of_nat W)%N) sigs).
Notation op := (SParBulkInsert sched (bench_ids (length sigs)) sigs : sop Z).

Lemma sbench_lookup id s : sspec_map [op] !! id = Some s <-> exists i, id = Z.of_nat i /\ sigs !! i = Some s.
Proof.
  unfold sspec_map. cbn [foldl sspec_step]. rewrite map_union_empty. rewrite <- bench_zip.
  assert (Hn : NoDup (reverse (zip (bench_ids (length sigs)) sigs)).*1).
  { rewrite fmap_reverse, bench_keys. rewrite reverse_Permutation. apply bench_ids_nodup. }
  rewrite <- elem_of_list_to_map by done. by rewrite elem_of_reverse.
Qed.

Lemma hamming_refl x : hamming W x x = 0.
Proof.
  unfold hamming. generalize (seq 0 W) as l. induction l as [|i l IH]; [done|].
  rewrite filter_cons_False by (intros H; by apply H). done.
Qed.

Lemma sbench_query first : head sigs = Some first ->
  exists m i, sindex_new W nb d = Some m /\
    squery_one order (spar_bulk_insert sched (bench_ids (length sigs)) sigs m) first = Some (Some (Z.of_nat i, 0)) /\
    sigs !! i = Some first.
Proof.
  intros Hh. assert (H0 : sigs !! 0 = Some first) by (by destruct sigs).
  assert (Hfirst : (first < 2 ^ N.of_nat W)%N).
  { rewrite Forall_forall in Hf. apply Hf. by eapply elem_of_list_lookup_2. }
  assert (Hops : Forall (sop_fits W) [op]) by (by repeat constructor).
  destruct (safter_inv W nb d [op] HW Hnb Hops) as (m & Em & Hm).
  destruct (squery_one_spec W nb d (sspec_map [op]) m first order HW Hnb Hm Hfirst Ho) as (r & Er & Hr).
  unfold safter in Em. destruct (sindex_new W nb d) as [m0|]; [|done]. cbn in Em. injection Em as <-.
  assert (Hself : sspec_map [op] !! 0%Z = Some first) by (apply sbench_lookup; by exists 0).
  destruct r as [[id k]|].
  - destruct Hr as (s & Hs & -> & _ & Hmin). specialize (Hmin 0%Z first Hself). rewrite hamming_refl in Hmin.
    apply sbench_lookup in Hs as (i & -> & Hi). assert (E : hamming W first s = 0) by lia. rewrite E in Er.
    exists m0, i. split; [done|]. split; [exact Er|]. rewrite Hi. f_equal. symmetry. apply (hamming_0 W); [done| |done].
    rewrite Forall_forall in Hf. apply Hf. by eapply elem_of_list_lookup_2.
  - exfalso. specialize (Hr 0%Z first Hself). rewrite hamming_refl in Hr. lia.
Qed.
End SimHash.

Section Run.
Context {U : Type}.

Lemma minhash_empty (hash : U -> N) draws bh order sched : bench_minhash hash draws bh order sched [] = None.
Proof.
  unfold bench_minhash, bench_signatures. cbn [mapM mbind option_bind mret option_ret].
  generalize (par_bulk_insert (container KHashSet Z) bh sched (bench_ids (length ([] : list (list U)))) []
    (new_index (container KHashSet Z) 50 5 bench_threshold)). intros [m [| | |]]; reflexivity.
Qed.

Lemma simhash_run_empty W nb d (hash : U -> N) order sched : simhash_run hash order sched W nb d [] = None.
Proof.
  unfold simhash_run. cbn [mapM mbind option_bind mret option_ret]. generalize (sindex_new (Id := Z) W nb d). intros [m|]; reflexivity.
Qed.

Lemma simhash_run_spec W nb d (hash : U -> N) order sched (items : list (list U)) first :
  1 < W -> 0 < d -> d <= nb <= W -> is_order order -> head items = Some first ->
  exists sigs s0 k i, Forall2 (fun t s => SimHash.create_signature W W hash t = Some s) items sigs /\
    head sigs = Some s0 /\
    simhash_run hash order sched W nb d items = Some (Some k, (Z.of_nat i, 0)) /\
    sigs !! i = Some s0 /\
    (exists s, s ∈ sigs /\ k = hamming W s0 s) /\
    (forall s, s ∈ sigs -> hamming W s0 s <= k) /\
    (k = 0 <-> forall s, s ∈ sigs -> s = s0).
Proof.
  intros HW Hd Hnb Ho Hh. unfold simhash_run.
  destruct (mapM_total (SimHash.create_signature W W hash) (fun s => (s < 2 ^ N.of_nat W)%N) items)
    as (sigs & -> & H2 & Hf).
  { intros t. destruct (SimHashFacts.create_signature_spec W W hash t ltac:(lia)) as (s & Hs & Hn & _). by exists s. }
  cbn [mbind option_bind]. destruct items as [|it items]; [done|]. cbn in Hh. injection Hh as ->.
  apply Forall2_cons_inv_l in H2 as (s0 & sigs' & E0 & H2' & ->).
  assert (Hlen : length (first :: items) = length (s0 :: sigs')) by (cbn; by rewrite (Forall2_length _ _ _ H2')).
  rewrite Hlen. set (sigs := s0 :: sigs') in *.
  assert (Hlt : forall s, s ∈ sigs -> (s < 2 ^ N.of_nat W)%N) by (by apply Forall_forall).
  destruct (sbench_query W nb d order sched sigs HW Hd Hnb Ho Hf s0 eq_refl)
    as (m & i & -> & Hq & Hi).
  cbn [mbind option_bind]. change (head sigs) with (Some s0). cbn [mbind option_bind]. rewrite Hq. cbn [mbind option_bind].
  destruct (max_by_nat (hamming_distance s0 <$> sigs)) as (k & Hk & Hin & Hmax); [done|].
  unfold simhash_scan. rewrite Hk.
  assert (Hs0 : s0 ∈ sigs) by by left.
  assert (E : forall s, s ∈ sigs -> hamming_distance s0 s = hamming W s0 s).
  { intros s Hs. apply hamming_distance_spec; by apply Hlt. }
  exists sigs, s0, k, i. split; [by apply List.Forall2_cons|]. split; [done|]. split; [done|]. split; [done|].
  apply elem_of_list_fmap in Hin as (s & -> & Hs).
  assert (Hm : forall s', s' ∈ sigs -> hamming W s0 s' <= hamming_distance s0 s).
  { intros s' Hs'. rewrite <- E by done. apply Hmax. by apply elem_of_list_fmap_1. }
  split; [exists s; split; [done|]; by apply E|]. split; [done|]. split.
  - intros Hz s' Hs'. specialize (Hm s' Hs'). rewrite Hz in Hm. symmetry. apply (hamming_0 W); [by apply Hlt|by apply Hlt|lia].
  - intros Hall. rewrite (Hall s Hs), E by done. apply hamming_refl.
Qed.
End Run.
