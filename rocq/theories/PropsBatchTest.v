(** Property theorem C83: the random unit test of the MinHash index, for all numbers it may draw. *)
From stdpp Require Import base list gmap.
From Coq Require Import NArith Lia.
From Verif Require Import Base Float Container MinHashIndex MinHasher PyHash Params Rng SpecIndex SpecRecall SpecBatchTest.
From Verif Require Import RecallFacts PropsRecall BatchTestFacts ExampleIndex SortFacts.
Local Open Scope nat_scope.

Local Typeclasses Opaque test_hasher.
Local Opaque test_hasher std_hasher_new.

(** The vectors of the test, the 100 of each group in turn. *)
Notation all_vectors g1 g2 g3 := (vectors g1 ++ vectors g2 ++ vectors g3).

Section Run.
Context (k : container_kind) (bh : list N -> N) (sched1 sched2 : list nat).
Context (order : gset N -> list N) (sort : list (N * f64) -> list (N * f64)).
Context (Hord : is_order order) (Hsort : is_sort (fun a c => f64_ge c a) sort).

Lemma own_group_near vs q from :
  own_group bh 42 3 BatchTestFacts.half (signature <$> vs) (signature q) from <->
  forall i v, vs !! i = Some v -> (near bh v q <-> from <= i < from + 100).
Proof.
  destruct test_hasher_facts as (h & draws & _ & E & Hd & _).
  assert (Hl : forall v, length (signature v) = 126).
  { intros v. unfold signature. rewrite E. apply (sign_total h draws Hd v). }
  assert (Hc : forall v, close_sigs bh 42 3 BatchTestFacts.half (signature v) (signature q) <-> near bh v q).
  { intros v. unfold close_sigs, near. by rewrite (sim_half _ _ (Hl v)). }
  unfold own_group. split.
  - intros H i v Hv. rewrite <- Hc. apply H. rewrite list_lookup_fmap, Hv. reflexivity.
  - intros H i s Hs. apply list_lookup_fmap_Some in Hs as (v & Hv & ->). rewrite Hc. by apply H.
Qed.

Lemma test_outcome powf fuel g1 g2 g3 :
  accurate powf -> 9 <= fuel ->
  length (copies g1) = 99 -> length (copies g2) = 99 -> length (copies g3) = 99 ->
  (batch_test k bh sched1 sched2 order sort powf fuel g1 g2 g3 = Ok true <->
   (forall i v, all_vectors g1 g2 g3 !! i = Some v ->
     (near bh v (base g1) <-> i < 100) /\
     (near bh v (base g2) <-> 100 <= i < 200) /\
     (near bh v (base g3) <-> 200 <= i < 300))) /\
  batch_test k bh sched1 sched2 order sort powf fuel g1 g2 g3 <> Panic.
Proof.
  intros Hpow Hfuel H1 H2 H3. unfold batch_test.
  change (f64_div (f64_of_N 1) (f64_of_N 2)) with BatchTestFacts.half.
  destruct (C75_documented powf Hpow) as [Hp _]. change (f64_div (f64_of_N 1) (f64_of_N 2)) with BatchTestFacts.half in Hp.
  rewrite Hp. cbn [mbind option_bind]. change (42 * 3) with 126.
  destruct test_hasher_facts as (h & draws & E9 & E & Hd & _).
  rewrite (fuel_irrelevant 9 fuel 126 h Hfuel E9). cbn [mbind option_bind].
  rewrite <- E. rewrite <- E in Hd.
  rewrite (signs_total test_hasher draws Hd (all_vectors g1 g2 g3)). cbn [mbind option_bind].
  destruct (sign_total test_hasher draws Hd (base g1)) as [-> L1].
  destruct (sign_total test_hasher draws Hd (base g2)) as [-> L2].
  destruct (sign_total test_hasher draws Hd (base g3)) as [-> L3]. cbn [mbind option_bind].
  change (fun v => default [] (create_signature MinHasher64V1 u64_hash test_hasher v)) with signature.
  change (default [] (create_signature MinHasher64V1 u64_hash test_hasher (base g1))) with (signature (base g1)) in *.
  change (default [] (create_signature MinHasher64V1 u64_hash test_hasher (base g2))) with (signature (base g2)) in *.
  change (default [] (create_signature MinHasher64V1 u64_hash test_hasher (base g3))) with (signature (base g3)) in *.
  assert (Hlen : length (all_vectors g1 g2 g3) = 300).
  { unfold vectors. rewrite !app_length. cbn [length]. rewrite !fmap_length, H1, H2, H3. reflexivity. }
  destruct (checks_outcome k bh sched1 sched2 order sort Hord Hsort 42 3 BatchTestFacts.half
    (signature <$> all_vectors g1 g2 g3)) with (q1 := signature (base g1)) (q2 := signature (base g2)) (q3 := signature (base g3)) as [Ht Hn].
  - lia.
  - reflexivity.
  - rewrite fmap_length. exact Hlen.
  - rewrite Forall_forall. intros s (v & -> & _)%elem_of_list_fmap. apply (sign_total test_hasher draws Hd v).
  - exact L1.
  - exact L2.
  - exact L3.
  - split; [|exact Hn]. rewrite Ht, !own_group_near. split.
    + intros (G1 & G2 & G3) i v Hv. specialize (G1 i v Hv). specialize (G2 i v Hv). specialize (G3 i v Hv).
      split; [|split]; [rewrite G1|rewrite G2|rewrite G3]; lia.
    + intros G. split; [|split]; intros i v Hv; destruct (G i v Hv) as (G1 & G2 & G3); [rewrite G1|rewrite G2|rewrite G3]; lia.
Qed.
End Run.

(** The test never panics outside its assertions. It passes exactly if each of the three vectors is
    near the 99 copies of itself and near none of the other 200 vectors; the assertions on the
    size, on [query_top_k] and on the removal of every second document never fail by themselves. *)
Theorem C83_batch_construction2 (k : container_kind) (bh : list N -> N) (sched1 sched2 : list nat)
    (order : gset N -> list N) (sort : list (N * f64) -> list (N * f64)) (powf : f64 -> f64 -> f64) (fuel : nat)
    (g1 g2 g3 : group) :
  accurate powf -> 9 <= fuel -> is_order order -> is_sort (fun a c => f64_ge c a) sort ->
  group_ok 100 g1 -> group_ok 50 g2 -> group_ok 10 g3 ->
  (batch_test k bh sched1 sched2 order sort powf fuel g1 g2 g3 = Ok true <->
   (forall i v, all_vectors g1 g2 g3 !! i = Some v ->
     (near bh v (base g1) <-> i < 100) /\
     (near bh v (base g2) <-> 100 <= i < 200) /\
     (near bh v (base g3) <-> 200 <= i < 300))) /\
  batch_test k bh sched1 sched2 order sort powf fuel g1 g2 g3 <> Panic.
Proof.
  intros Hpow Hf Ho Hs (_ & _ & H1 & _) (_ & _ & H2 & _) (_ & _ & H3 & _).
  exact (test_outcome k bh sched1 sched2 order sort Ho Hs powf fuel g1 g2 g3 Hpow Hf H1 H2 H3).
Qed.

(** Draws of one number only, copies included. *)
Definition constant_group (n : nat) (c : N) : group := Group (replicate 1000 c) (replicate 99 (replicate n (0, c))).
Lemma constant_group_ok n c : value_ok c -> group_ok n (constant_group n c).
Proof.
  intros Hc. split; [apply replicate_length|]. split; [by apply Forall_replicate|]. split; [apply replicate_length|].
  apply Forall_replicate. split; [apply replicate_length|]. apply Forall_replicate. split; [simpl; lia|exact Hc].
Qed.
Lemma constant_vectors n c v : v ∈ vectors (constant_group n c) -> v = replicate 1000 c.
Proof.
  unfold vectors, constant_group. cbn [base copies]. rewrite elem_of_cons, elem_of_list_fmap.
  intros [->|(ch & -> & [-> _]%elem_of_replicate)]; [reflexivity|]. unfold change_values.
  generalize 1000 as l. induction n as [|n IH]; intros l; [reflexivity|]. cbn [replicate foldl fst snd].
  rewrite insert_replicate. apply IH.
Qed.
Lemma constant_signature c : signature (replicate 1000 c) = signature [c].
Proof.
  destruct test_hasher_facts as (h & draws & _ & E & Hd & _). unfold signature. rewrite E.
  rewrite (sign_replicate h draws Hd 1000 c); [reflexivity|lia].
Qed.
Lemma filter_all_true {A} (P : A -> Prop) `{forall x, Decision (P x)} (l : list A) : (forall x, x ∈ l -> P x) -> filter P l = l.
Proof.
  induction l as [|x l IH]; intros H'; [reflexivity|]. rewrite filter_cons_True by (apply H'; left). f_equal.
  apply IH. intros y Hy. apply H'. by right.
Qed.
Lemma near_self bh v : near bh v v.
Proof.
  destruct test_hasher_facts as (h & draws & _ & E & Hd & _).
  assert (Hl : length (signature v) = 126) by (unfold signature; rewrite E; apply (sign_total h draws Hd v)).
  split; [|exists 0; split; [lia|reflexivity]]. unfold agreements. rewrite Hl.
  rewrite filter_all_true. { rewrite seq_length. lia. } intros i _. reflexivity.
Qed.
Lemma not_near bh (c d : N) : agreements (signature [c]) (signature [d]) < 63 ->
  ~ near bh (replicate 1000 c) (replicate 1000 d).
Proof. intros Hlt [Hge _]. rewrite !constant_signature in Hge. lia. Qed.
Lemma agreements_sym (x y : list N) : length x = length y -> agreements x y = agreements y x.
Proof.
  intros Hl. unfold agreements. rewrite Hl. f_equal. apply list_filter_iff. intros i. split; intros E; by rewrite E.
Qed.
Lemma apart bh c d : c <> d -> c ∈ [1;2;3]%N -> d ∈ [1;2;3]%N -> ~ near bh (replicate 1000 c) (replicate 1000 d).
Proof.
  destruct test_hasher_facts as (h & draws & _ & E & Hd & s1 & s2 & s3 & E1 & E2 & E3 & A12 & A13 & A23).
  assert (Hl : forall v, length (signature v) = 126).
  { intros v. unfold signature. rewrite E. apply (sign_total h draws Hd v). }
  assert (S1 : signature [1%N] = s1) by (unfold signature; rewrite E, E1; reflexivity).
  assert (S2 : signature [2%N] = s2) by (unfold signature; rewrite E, E2; reflexivity).
  assert (S3 : signature [3%N] = s3) by (unfold signature; rewrite E, E3; reflexivity).
  assert (L : length s1 = 126 /\ length s2 = 126 /\ length s3 = 126) by (rewrite <- S1, <- S2, <- S3; auto).
  destruct L as (L1 & L2 & L3).
  intros Hne Hc Hd'. apply not_near.
  rewrite !elem_of_cons, elem_of_nil in Hc, Hd'.
  destruct Hc as [->|[->|[->|[]]]]; destruct Hd' as [->|[->|[->|[]]]]; try (exfalso; apply Hne; reflexivity);
    rewrite ?S1, ?S2, ?S3; first [assumption|rewrite agreements_sym by congruence; assumption].
Qed.

Lemma which_group {A} (l1 l2 l3 : list A) i v : length l1 = 100 -> length l2 = 100 -> length l3 = 100 ->
  (l1 ++ l2 ++ l3) !! i = Some v ->
  (i < 100 /\ v ∈ l1) \/ (100 <= i < 200 /\ v ∈ l2) \/ (200 <= i < 300 /\ v ∈ l3).
Proof.
  intros H1 H2 H3 Hv. apply lookup_app_Some in Hv as [Hv|[Hi Hv]].
  - left. split; [apply lookup_lt_Some in Hv; lia|by apply elem_of_list_lookup_2 in Hv].
  - right. apply lookup_app_Some in Hv as [Hv|[Hi' Hv]].
    + left. split; [apply lookup_lt_Some in Hv; lia|by apply elem_of_list_lookup_2 in Hv].
    + right. split; [apply lookup_lt_Some in Hv; lia|by apply elem_of_list_lookup_2 in Hv].
Qed.
Lemma vectors_length n c : length (vectors (constant_group n c)) = 100.
Proof. unfold vectors, constant_group. cbn [length copies base]. rewrite fmap_length, replicate_length. reflexivity. Qed.

(** Draws with which the test passes, for every band hash, and with which it fails. *)
Theorem C83_passes (k : container_kind) (bh : list N -> N) (sched1 sched2 : list nat)
    (order : gset N -> list N) (sort : list (N * f64) -> list (N * f64)) (powf : f64 -> f64 -> f64) (fuel : nat) :
  accurate powf -> 9 <= fuel -> is_order order -> is_sort (fun a c => f64_ge c a) sort ->
  batch_test k bh sched1 sched2 order sort powf fuel (constant_group 100 1) (constant_group 50 2) (constant_group 10 3) = Ok true.
Proof.
  intros Hpow Hf Ho Hs.
  apply (proj1 (C83_batch_construction2 k bh sched1 sched2 order sort powf fuel (constant_group 100 1) (constant_group 50 2) (constant_group 10 3)
    Hpow Hf Ho Hs ltac:(apply constant_group_ok; split; lia) ltac:(apply constant_group_ok; split; lia) ltac:(apply constant_group_ok; split; lia))).
  intros i v Hv. cbn [base constant_group].
  apply which_group in Hv; [|apply vectors_length..].
  destruct Hv as [[Hi Hv]|[[Hi Hv]|[Hi Hv]]]; apply constant_vectors in Hv; subst v;
    (split; [|split]); (split; [intros Hn|intros Hr]);
    first [lia | apply near_self | exfalso; revert Hn; apply apart; [discriminate|set_solver|set_solver]].
Qed.

Theorem C83_always_passes_refuted :
  exists g1 g2 g3 : group, group_ok 100 g1 /\ group_ok 50 g2 /\ group_ok 10 g3 /\
  forall k bh sched1 sched2 order sort powf fuel,
    accurate powf -> 9 <= fuel -> is_order order -> is_sort (fun a c => f64_ge c a) sort ->
    batch_test k bh sched1 sched2 order sort powf fuel g1 g2 g3 = Ok false.
Proof.
  exists (constant_group 100 1), (constant_group 50 1), (constant_group 10 1).
  assert (Hok : forall n, group_ok n (constant_group n 1)) by (intros n; apply constant_group_ok; split; lia).
  split; [apply Hok|]. split; [apply Hok|]. split; [apply Hok|].
  intros k bh sched1 sched2 order sort powf fuel Hpow Hf Ho Hs.
  destruct (C83_batch_construction2 k bh sched1 sched2 order sort powf fuel _ _ _ Hpow Hf Ho Hs (Hok 100) (Hok 50) (Hok 10)) as [Ht Hn].
  destruct (batch_test k bh sched1 sched2 order sort powf fuel _ _ _) as [[]|]; [|reflexivity|destruct Hn; reflexivity].
  destruct Ht as [Ht _]. specialize (Ht eq_refl 0 (replicate 1000 1%N) eq_refl).
  cbn [base constant_group] in Ht. destruct Ht as (_ & [H2 _] & _). specialize (H2 (near_self bh _)). lia.
Qed.

(** The hypotheses are met. *)
Example C83_example :
  accurate pow_exact /\ is_order (Id := N) elements /\ is_sort (Id := N) (fun a c => f64_ge c a) sort_asc /\
  group_ok 100 (constant_group 100 1) /\ value_ok 99999.
Proof.
  split; [exact pow_exact_accurate|]. split; [by intros s|]. split; [apply sort_asc_ok|].
  split; [apply constant_group_ok; split; lia|split; lia].
Qed.
(** ** The bytes of a number *)
Local Open Scope N_scope.
Lemma le_bytes_value n x : foldr (fun b rest => b + 256 * rest) 0 (le_bytes n x) = x mod 256 ^ N.of_nat n.
Proof.
  revert x. induction n as [|n IH]; intros x; [cbn; by rewrite N.mod_1_r|].
  cbn [le_bytes foldr]. rewrite IH, Nat2N.inj_succ, N.pow_succ_r'.
  rewrite N.mod_mul_r; [done|done|by apply N.pow_nonzero].
Qed.

(** A number is written as its digits to base 256, the lowest first: as many bytes as asked for,
    from which the number can be read back when it fits. *)
Theorem C83_bytes (n : nat) (x : N) :
  length (le_bytes n x) = n /\ Forall (fun b => b < 256) (le_bytes n x) /\
  foldr (fun b rest => b + 256 * rest) 0 (le_bytes n x) = x mod 256 ^ N.of_nat n.
Proof.
  split; [|split]; [| |apply le_bytes_value].
  - revert x. induction n as [|n IH]; intros x; cbn [le_bytes length]; [done|by rewrite IH].
  - revert x. induction n as [|n IH]; intros x; cbn [le_bytes]; constructor; [by apply N.mod_lt|apply IH].
Qed.
Example C83_bytes_example : le_bytes 8 99999 = [159; 134; 1; 0; 0; 0; 0; 0] /\ le_bytes 2 70000 = [112; 17].
Proof. split; vm_compute; reflexivity. Qed.

Print Assumptions C83_batch_construction2.
Print Assumptions C83_passes.
Print Assumptions C83_always_passes_refuted.
Print Assumptions C83_bytes.
