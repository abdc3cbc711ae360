(** Proofs about the random unit test of the MinHash index (SpecBatchTest.v). *)
From stdpp Require Import base list gmap.
From Coq Require Import NArith Lia.
From Verif Require Import Base Par Float Container MinHashIndex MinHasher SpecIndex SpecBatchTest.
From Verif Require Import Rng RngDraws Fnv PyHash FastHash MinHasherFacts RecallFacts PropsRecall SpecRecall Params.
From Verif Require Import ContainerFacts MinHashIndexFacts MinHashIndexFacts2 MinHashIndexThms PropsIndex.
Local Open Scope nat_scope.

Lemma assert_true b rest : assert b rest = Ok true <-> b = true /\ rest = Ok true.
Proof. destruct b; simpl; naive_solver. Qed.
Lemma assert_panic b rest : rest <> Panic -> assert b rest <> Panic.
Proof. by destruct b. Qed.

(** A set with all elements of a list without repetitions and as many elements. *)
Lemma exact_group (S : gset N) (l : list N) : NoDup l ->
  size S = length l /\ length (filter (fun i => i ∈ S) l) = length l <-> forall i, i ∈ S <-> i ∈ l.
Proof.
  intros Hnd. split.
  - intros [Hs Hf].
    assert (Hall : forall i, i ∈ l -> i ∈ S).
    { clear Hs Hnd. induction l as [|x l IH]; intros i Hi; [by apply elem_of_nil in Hi|].
      rewrite filter_cons in Hf. pose proof (filter_length (fun i => i ∈ S) l).
      case_decide as Hx; simpl in Hf; [|lia]. apply elem_of_cons in Hi as [->|Hi]; [done|]. apply IH; [lia|done]. }
    intros i. split; [|apply Hall]. intros Hi.
    destruct (decide (i ∈ l)) as [Hl|Hl]; [done|exfalso].
    assert (Hsub : (list_to_set (i :: l) : gset N) ⊆ S).
    { intros j Hj%elem_of_list_to_set. apply elem_of_cons in Hj as [->|Hj]; [done|by apply Hall]. }
    apply subseteq_size in Hsub. rewrite size_list_to_set in Hsub by (by constructor). simpl in Hsub. lia.
  - intros Heq.
    assert (E : S = list_to_set l) by (apply set_eq; intros i; by rewrite Heq, elem_of_list_to_set).
    split; [rewrite E; by apply size_list_to_set|]. f_equal. clear E. rename Hnd into H0. clear H0.
    assert (Hl : forall i, i ∈ l -> i ∈ S) by (intros i; apply Heq). clear Heq.
    induction l as [|x l IH]; [done|]. rewrite filter_cons_True by (apply Hl; left). f_equal.
    apply IH. intros i Hi. apply Hl. by right.
Qed.

Section Checks.
Context (k : container_kind) (bh : list N -> N) (sched1 sched2 : list nat).
Context (order : gset N -> list N) (sort : list (N * f64) -> list (N * f64)).
Context (Hord : is_order order) (Hsort : is_sort (fun a c => f64_ge c a) sort).
Context (b r : nat) (th : f64) (sigs : list (list N)).
Context (Hpos : 0 < b * r) (Hbig : (N.of_nat (b * r) < 2 ^ 51)%N).
Context (Hn : length sigs = 300) (Hsized : Forall (fun s => length s = b * r) sigs).

Definition close_sigs (s q : list N) : Prop :=
  f64_ge (sim s q) th = true /\ exists i, i < b /\ bh (nth_band r i s) = bh (nth_band r i q).

Notation all_ids := (N.of_nat <$> seq 0 300).
Notation op1 := (ParBulkInsert sched1 all_ids sigs : op N N).
Notation evens := ((fun i => N.of_nat (2 * i)) <$> seq 0 50).
Notation op2 := (BulkRemove sched2 evens : op N N).
Notation K := (container k N).
Notation m1 := (after k bh b r th [op1]).
Notation m2 := (after k bh b r th [op1; op2]).

Lemma zip_keys : (zip all_ids sigs).*1 = all_ids.
Proof. rewrite fst_zip; [done|]. rewrite fmap_length, seq_length. lia. Qed.
Lemma ids_nodup (from n : nat) : NoDup (N.of_nat <$> seq from n).
Proof. apply NoDup_fmap_2; [intros x y; lia|apply NoDup_seq]. Qed.
Lemma zip_lookup i s : (N.of_nat i, s) ∈ zip all_ids sigs <-> sigs !! i = Some s.
Proof.
  rewrite elem_of_list_lookup. split.
  - intros [j Hj]. apply lookup_zip_with_Some in Hj as (x0 & s0 & Heq & Hj & Hs); injection Heq as <- <-.
    apply list_lookup_fmap_Some in Hj as (x & [-> Hlt]%lookup_seq & Hx). simpl in Hx.
    apply Nat2N.inj in Hx. by subst.
  - intros Hs. exists i. apply lookup_zip_with_Some. exists (N.of_nat i), s. split_and!; [done| |done]. rewrite list_lookup_fmap.
    apply lookup_lt_Some in Hs as Hlt. rewrite lookup_seq_lt by lia. done.
Qed.

Lemma map1 : spec_map (b * r) [op1] = insert_pairs (zip all_ids sigs) ∅.
Proof.
  unfold spec_map. cbn [fold_left spec_step].
  assert (E : bulk_rejected (b * r) all_ids sigs = false); [|by rewrite E].
  unfold bulk_rejected. destruct sigs as [|s0 l] eqn:El; [done|].
  apply Forall_cons in Hsized as Hs. destruct Hs as [Hs _].
  apply orb_false_iff. split; [by apply bool_decide_eq_false_2; intros H|].
  apply bool_decide_eq_false_2. rewrite <- El in *. rewrite Exists_exists. intros ([i s] & Hin & Hl).
  apply elem_of_zip_r in Hin. rewrite Forall_forall in Hsized. apply Hsized in Hin. simpl in Hl. lia.
Qed.

Lemma map1_lookup id s : spec_map (b * r) [op1] !! id = Some s <-> exists i, id = N.of_nat i /\ sigs !! i = Some s.
Proof.
  rewrite map1. split.
  - intros [Hin|[Hn' _]]%insert_pairs_lookup; [|by rewrite lookup_empty in Hn'].
    exists (N.to_nat id). rewrite N2Nat.id. split; [done|]. apply zip_lookup. by rewrite N2Nat.id.
  - intros (i & -> & Hs). apply insert_pairs_lookup_nodup; [|by apply zip_lookup].
    rewrite zip_keys. apply ids_nodup.
Qed.

Lemma even_ids : NoDup evens /\ Forall (fun id => is_Some (spec_map (b * r) [op1] !! id)) evens.
Proof.
  split; [apply NoDup_fmap_2; [intros x y; lia|apply NoDup_seq]|].
  rewrite Forall_forall. intros id (i & -> & Hi%elem_of_seq)%elem_of_list_fmap.
  destruct (lookup_lt_is_Some_2 sigs (2 * i)) as [s Hs]; [lia|]. exists s. apply map1_lookup. eauto.
Qed.

Lemma clean1 : clean (b * r) [op1].
Proof.
  split; [|done]. cbn [clean_op]. rewrite zip_keys. split; [apply ids_nodup|]. split; [|done].
  rewrite Forall_forall. intros p _. apply lookup_empty.
Qed.
Lemma clean2 : clean (b * r) [op1; op2].
Proof.
  destruct even_ids as [He1 He2]. unfold spec_map in He2. cbn [fold_left] in He2.
  split; [apply clean1|]. split; [|done]. by split.
Qed.

Lemma step1 : step K bh (new_index K b r th) op1 = (m1, OUnit).
Proof.
  pose proof (C06_index_is_map k bh b r th ([] : list (op N N))) as (_ & _ & Ho & _).
  specialize (Ho op1). unfold spec_out in Ho.
  assert (E : bulk_rejected (b * r) all_ids sigs = false).
  { destruct (bulk_rejected (b * r) all_ids sigs) eqn:E; [|done].
    pose proof map1 as Hm. unfold spec_map in Hm. cbn [fold_left spec_step] in Hm. rewrite E in Hm.
    destruct (lookup_lt_is_Some_2 sigs 0) as [s Hs]; [lia|].
    assert (H0 : spec_map (b * r) [op1] !! N.of_nat 0 = Some s) by (apply map1_lookup; eauto).
    rewrite map1, <- Hm in H0. by rewrite lookup_empty in H0. }
  rewrite E in Ho. change (after k bh b r th ([] : list (op N N))) with (new_index (T := N) K b r th) in Ho.
  change m1 with ((step K bh (new_index K b r th) op1).1).
  destruct (step K bh (new_index K b r th) op1) as [m o]. simpl in *. by subst.
Qed.

Lemma step2 : exists l, step K bh m1 op2 = (m2, OSigs l).
Proof.
  pose proof (C06_index_is_map k bh b r th [op1]) as (_ & _ & Ho & _).
  specialize (Ho op2). unfold spec_out in Ho. eexists.
  change m2 with ((step K bh m1 op2).1).
  destruct (step K bh m1 op2) as [m o]. simpl in *. by subst.
Qed.

Lemma size1 : index_size K m1 = 300.
Proof.
  pose proof (C06_index_is_map k bh b r th [op1]) as (_ & -> & _ & _).
  rewrite map1, <- size_dom.
  assert (E : dom (insert_pairs (zip all_ids sigs) ∅) = list_to_set all_ids :> gset N).
  { apply set_eq. intros id. rewrite elem_of_dom, elem_of_list_to_set, <- map1. split.
    - intros [s (i & -> & Hs)%map1_lookup]. apply elem_of_list_fmap_1, elem_of_seq.
      apply lookup_lt_Some in Hs. lia.
    - intros (i & -> & Hi%elem_of_seq)%elem_of_list_fmap.
      destruct (lookup_lt_is_Some_2 sigs i) as [s Hs]; [lia|]. exists s. apply map1_lookup. eauto. }
  rewrite E, size_list_to_set by apply ids_nodup. by rewrite fmap_length, seq_length.
Qed.

Lemma query1 q : length q = b * r -> exists S, query K bh m1 q = Some S /\
  forall i s, sigs !! i = Some s -> (N.of_nat i ∈ S <-> close_sigs s q).
Proof.
  intros Hq. destruct (exact_answer k bh b r th [op1] q clean1 Hq) as (S & HS & Hin).
  exists S. split; [done|]. intros i s Hs. rewrite Hin. split.
  - intros (s' & (j & Hj & Hs')%map1_lookup & Hc). apply Nat2N.inj in Hj. subst. by simplify_eq.
  - intros Hc. exists s. split; [apply map1_lookup; eauto|done].
Qed.
Lemma query1_ids q S : length q = b * r -> query K bh m1 q = Some S -> forall id, id ∈ S -> exists i, id = N.of_nat i /\ i < 300.
Proof.
  intros Hq HS id Hid. destruct (exact_answer k bh b r th [op1] q clean1 Hq) as (S' & HS' & Hin).
  rewrite HS in HS'. simplify_eq. apply Hin in Hid as (s & (i & -> & Hs)%map1_lookup & _).
  exists i. split; [done|]. apply lookup_lt_Some in Hs. lia.
Qed.

(** Exactly the signatures numbered [from], ..., [from + 99] are close to [q]. *)
Definition own_group (q : list N) (from : nat) : Prop :=
  forall i s, sigs !! i = Some s -> (close_sigs s q <-> from <= i < from + 100).

Lemma assert_group_true q from rest : length q = b * r -> from + 100 <= 300 ->
  assert_group k bh m1 q from rest = Ok true <-> own_group q from /\ rest = Ok true.
Proof.
  intros Hq Hf. destruct (query1 q Hq) as (S & HS & Hin). unfold assert_group. rewrite HS. cbn [mbind option_bind].
  rewrite !assert_true, !Nat.eqb_eq, (assoc and).
  assert (Hl : length (N.of_nat <$> seq from 100) = 100) by (by rewrite fmap_length, seq_length).
  pose proof (exact_group S _ (ids_nodup from 100)) as He. rewrite Hl in He. rewrite He.
  apply and_iff_compat_r. split.
  - intros Hall i s Hs. rewrite <- (Hin i s Hs), Hall, elem_of_list_fmap. split.
    + intros (j & Hj%Nat2N.inj & Hr%elem_of_seq). lia.
    + intros Hr. exists i. split; [done|]. by apply elem_of_seq.
  - intros Hown id. rewrite elem_of_list_fmap. split.
    + intros Hid. destruct (query1_ids q S Hq HS id Hid) as (i & -> & Hi).
      destruct (lookup_lt_is_Some_2 sigs i) as [s Hs]; [lia|].
      exists i. split; [done|]. apply elem_of_seq, (Hown i s Hs), (Hin i s Hs), Hid.
    + intros (i & -> & Hi%elem_of_seq). destruct (lookup_lt_is_Some_2 sigs i) as [s Hs]; [lia|].
      apply (Hin i s Hs), (Hown i s Hs). done.
Qed.
Lemma assert_group_panic q from rest : length q = b * r -> rest <> Panic -> assert_group k bh m1 q from rest <> Panic.
Proof.
  intros Hq Hr. destruct (query1 q Hq) as (S & HS & _). unfold assert_group. rewrite HS. cbn [mbind option_bind].
  by repeat apply assert_panic.
Qed.

Lemma top_total q : length q = b * r -> exists top,
  query_top_k K bh order sort m1 q 10 = Some top /\ (own_group q 0 -> length top = 10).
Proof.
  intros Hq. assert (Hq0 : 0 < length q) by lia. assert (HqN : (N.of_nat (length q) < 2 ^ 51)%N) by (by rewrite Hq).
  destruct (C10_top_k k bh b r th [op1] q 10 order sort clean1 Hq Hq0 HqN Hord Hsort)
    as (cs & top & Ht & Hcs & Hlen & _).
  exists top. split; [done|]. intros Hown. rewrite Hlen.
  assert (Hsub : (list_to_set (N.of_nat <$> seq 0 100) : gset N) ⊆ cs).
  { intros id Hid. apply elem_of_list_to_set, elem_of_list_fmap in Hid as (i & -> & Hi%elem_of_seq).
    apply Hcs. destruct (lookup_lt_is_Some_2 sigs i) as [s Hs]; [lia|]. exists s.
    split; [apply map1_lookup; eauto|]. apply (Hown i s Hs). lia. }
  apply subseteq_size in Hsub. rewrite size_list_to_set, fmap_length, seq_length in Hsub by apply ids_nodup. lia.
Qed.

Lemma map2_lookup id s : spec_map (b * r) [op1; op2] !! id = Some s <->
  (exists i, id = N.of_nat i /\ sigs !! i = Some s) /\ id ∉ evens.
Proof.
  change (spec_map (b * r) [op1; op2]) with (filter (fun kv : N * list N => kv.1 ∉ evens) (spec_map (b * r) [op1])).
  rewrite map_filter_lookup_Some, map1_lookup. done.
Qed.

Lemma query2 q : length q = b * r -> exists S, query K bh m2 q = Some S /\ (own_group q 0 -> size S = 50).
Proof.
  intros Hq. destruct (exact_answer k bh b r th [op1; op2] q clean2 Hq) as (S & HS & Hin).
  exists S. split; [done|]. intros Hown.
  assert (E : S = list_to_set ((fun i => N.of_nat (2 * i + 1)) <$> seq 0 50)).
  { apply set_eq. intros id. rewrite Hin, elem_of_list_to_set, elem_of_list_fmap. split.
    - intros (s & [(i & -> & Hs) Hne]%map2_lookup & Hc). apply (Hown i s Hs) in Hc.
      destruct (Nat.Even_or_Odd i) as [[j ->]|[j ->]].
      + exfalso. apply Hne. apply elem_of_list_fmap. exists j. split; [done|]. apply elem_of_seq. lia.
      + exists j. split; [done|]. apply elem_of_seq. lia.
    - intros (j & -> & Hj%elem_of_seq). destruct (lookup_lt_is_Some_2 sigs (2 * j + 1)) as [s Hs]; [lia|].
      exists s. split; [|apply (Hown _ s Hs); lia]. apply map2_lookup. split; [eauto|].
      intros (i & Hi & _)%elem_of_list_fmap. lia. }
  rewrite E, size_list_to_set; [by rewrite fmap_length, seq_length|].
  apply NoDup_fmap_2; [intros x y; lia|apply NoDup_seq].
Qed.

Lemma checks_outcome q1 q2 q3 : length q1 = b * r -> length q2 = b * r -> length q3 = b * r ->
  (batch_checks k bh sched1 sched2 order sort b r th sigs q1 q2 q3 = Ok true <->
   own_group q1 0 /\ own_group q2 100 /\ own_group q3 200) /\
  batch_checks k bh sched1 sched2 order sort b r th sigs q1 q2 q3 <> Panic.
Proof.
  intros H1 H2 H3. unfold batch_checks. rewrite step1.
  destruct step2 as [l Hstep2]. destruct (top_total q1 H1) as (top & Htop & Hlen).
  destruct (query2 q1 H1) as (S & HS & Hsize). rewrite size1.
  split.
  - rewrite assert_true, assert_group_true by first [exact H1|exact H2|exact H3|lia]. rewrite Htop. cbn [mbind option_bind].
    rewrite assert_true, !assert_group_true by first [exact H1|exact H2|exact H3|lia]. rewrite Hstep2, HS. cbn [mbind option_bind].
    rewrite assert_true, !Nat.eqb_eq. tauto.
  - apply assert_panic, assert_group_panic; [exact H1|]. rewrite Htop. cbn [mbind option_bind].
    apply assert_panic, assert_group_panic; [exact H2|]. apply assert_group_panic; [exact H3|].
    rewrite Hstep2, HS. cbn [mbind option_bind]. apply assert_panic. discriminate.
Qed.
End Checks.

(** ** The hasher of the test *)
Definition fast_u64 (x : N) : N := fast_write fnv_default (le_bytes 8 x).
Lemma fast_u64_ok x : fast_u64 x = u64_hash x.
Proof. apply fast_write_ok. Qed.

(** The signatures of the tokens 1, 2 and 3 agree in less than half of the hashes. *)
Definition hasher_check (o : option hasher) : bool :=
  match o with
  | Some h =>
      match fast_signature fast_u64 MinHasher64V1 h [1%N], fast_signature fast_u64 MinHasher64V1 h [2%N], fast_signature fast_u64 MinHasher64V1 h [3%N] with
      | Some s1, Some s2, Some s3 => (agreements s1 s2 <? 63) && (agreements s1 s3 <? 63) && (agreements s2 s3 <? 63)
      | _, _, _ => false
      end
  | None => false
  end.
Lemma hasher_check_true : hasher_check (std_hasher_new 9 MinHasher64V1 126) = true.
Proof. vm_compute. reflexivity. Qed.

Definition hasher_facts (o : option hasher) (test : hasher) (n : nat) : Prop :=
  exists h draws, o = Some h /\ test = h /\ h = new_with_hasher_and_seed draws n 3 /\
  exists s1 s2 s3,
    create_signature MinHasher64V1 u64_hash h [1%N] = Some s1 /\
    create_signature MinHasher64V1 u64_hash h [2%N] = Some s2 /\
    create_signature MinHasher64V1 u64_hash h [3%N] = Some s3 /\
    agreements s1 s2 < 63 /\ agreements s1 s3 < 63 /\ agreements s2 s3 < 63.

Lemma facts_of fuel n d : hasher_check (std_hasher_new fuel MinHasher64V1 n) = true ->
  hasher_facts (std_hasher_new fuel MinHasher64V1 n) (default d (std_hasher_new fuel MinHasher64V1 n)) n.
Proof.
  unfold hasher_facts. destruct (std_hasher_new fuel MinHasher64V1 n) as [h|] eqn:E; [|discriminate]. intros Hc.
  destruct (std_coefficients fuel MinHasher64V1 n 3 h E) as (_ & _ & _ & _ & _ & [draws Hd] & _).
  exists h, draws. split; [reflexivity|]. split; [reflexivity|]. split; [exact Hd|]. unfold hasher_check in Hc.
  rewrite !(fast_signature_ext fast_u64 u64_hash) in Hc by exact fast_u64_ok.
  destruct (create_signature MinHasher64V1 u64_hash h [1%N]) as [s1|]; [|discriminate Hc].
  destruct (create_signature MinHasher64V1 u64_hash h [2%N]) as [s2|]; [|discriminate Hc].
  destruct (create_signature MinHasher64V1 u64_hash h [3%N]) as [s3|]; [|discriminate Hc].
  apply andb_true_iff in Hc as [Hc H3]. apply andb_true_iff in Hc as [H1 H2].
  exists s1, s2, s3. rewrite Nat.ltb_lt in H1, H2, H3. tauto.
Qed.

Lemma test_hasher_facts : hasher_facts (std_hasher_new 9 MinHasher64V1 126) test_hasher 126.
Proof. exact (facts_of 9 126 (Hasher [] [] 0) hasher_check_true). Qed.

Lemma fuel_irrelevant fuel fuel' n h : fuel <= fuel' -> std_hasher_new fuel MinHasher64V1 n = Some h ->
  std_hasher_new fuel' MinHasher64V1 n = Some h.
Proof. apply std_hasher_fuel. Qed.

(** ** The test *)
Section Vectors.
Context (test : hasher) (draws : N -> nat -> nat -> N) (Htest : test = new_with_hasher_and_seed draws 126 3).
Notation sign v := (create_signature MinHasher64V1 u64_hash test v).
Notation sig v := (default [] (sign v)).

Lemma sign_total v : sign v = Some (sig v) /\ length (sig v) = 126.
Proof.
  rewrite Htest. destruct (signature_shape u64_hash draws 126 3 MinHasher64V1 v) as (s & -> & Hl & _). done.
Qed.
Lemma signs_total vs : mapM (create_signature MinHasher64V1 u64_hash test) vs = Some ((fun v => sig v) <$> vs).
Proof.
  induction vs as [|v vs IH]; [reflexivity|]. cbn [mapM]. destruct (sign_total v) as [E _].
  cbn [fmap list_fmap]. rewrite E at 1. cbn [mbind option_bind mret option_ret]. rewrite IH. reflexivity.
Qed.
Lemma sign_replicate n c : 0 < n -> sign (replicate n c) = sign [c].
Proof.
  intros Hn. rewrite Htest. apply signature_set. intros u. rewrite elem_of_list_singleton. split.
  - by intros [-> _]%elem_of_replicate.
  - intros ->. apply elem_of_replicate. split; [done|lia].
Qed.
End Vectors.

(** At least half of 126 hashes. *)
Definition half : f64 := f64_div (f64_of_N 1) (f64_of_N 2).
Lemma half_check : forallb (fun n => Bool.eqb (f64_ge (f64_div (f64_of_N (N.of_nat n)) (f64_of_N 126)) half) (63 <=? n)) (seq 0 127) = true.
Proof. vm_compute. reflexivity. Qed.
Lemma sim_half (x y : list N) : length x = 126 -> f64_ge (sim x y) half = true <-> 63 <= agreements x y.
Proof.
  intros Hx. unfold sim. rewrite Hx. change (N.of_nat 126) with 126%N.
  assert (Ha : agreements x y <= 126).
  { unfold agreements. rewrite Hx. etransitivity; [apply filter_length|]. by rewrite seq_length. }
  pose proof half_check as Hc. rewrite forallb_forall in Hc. specialize (Hc (agreements x y)).
  rewrite in_seq in Hc. specialize (Hc ltac:(lia)). apply Bool.eqb_prop in Hc. rewrite Hc. apply Nat.leb_le.
Qed.
