(** Property C98: the unit tests of the SuperMinHash variants pass in every run.

    Nothing in them is random: the generator is seeded with the FNV hash of each token. Thirty rounds
    suffice for every number drawn. *)
From stdpp Require Import base list.
From Coq Require Import NArith Ascii String.
From Verif Require Import Base Par Float Similarity SpecIndex SuperMinHash Fnv FastHash Rng Jaccard Text ParFacts SuperFacts3 SuperTest SuperTestFacts.
Local Open Scope nat_scope.

(** The hashes of the tokens: a common beginning and the rest of each text. *)
Definition long : list N := Eval vm_compute in take 33 (fast_str <$> whitespace_split S10).
Definition long_a : list N := Eval vm_compute in drop 33 (fast_str <$> whitespace_split S10).
Definition long_b : list N := Eval vm_compute in drop 33 (fast_str <$> whitespace_split S11).
Definition short : list N := Eval vm_compute in take 4 (fast_str <$> whitespace_split S1).
Definition short_a : list N := Eval vm_compute in drop 4 (fast_str <$> whitespace_split S1).
Definition short_b : list N := Eval vm_compute in drop 4 (fast_str <$> whitespace_split S3).
Lemma long_a_ok : fast_str <$> whitespace_split S10 = long ++ long_a. Proof. vm_compute. reflexivity. Qed.
Lemma long_b_ok : fast_str <$> whitespace_split S11 = long ++ long_b. Proof. vm_compute. reflexivity. Qed.
Lemma short_a_ok : fast_str <$> whitespace_split S1 = short ++ short_a. Proof. vm_compute. reflexivity. Qed.
Lemma short_b_ok : fast_str <$> whitespace_split S3 = short ++ short_b. Proof. vm_compute. reflexivity. Qed.

(** *** SuperMinHasher32V1 *)
Definition long1 : list f32 := Eval vm_compute in default [] (v1_steps 128 (replicate 128 initial) long).
Definition long1_a : list f32 := Eval vm_compute in default [] (v1_steps 128 long1 long_a).
Definition long1_b : list f32 := Eval vm_compute in default [] (v1_steps 128 long1 long_b).
Definition short1 : list f32 := Eval vm_compute in default [] (v1_steps 128 (replicate 128 initial) short).
Definition short1_a : list f32 := Eval vm_compute in default [] (v1_steps 128 short1 short_a).
Definition short1_b : list f32 := Eval vm_compute in default [] (v1_steps 128 short1 short_b).
Lemma long1_ok : v1_steps 128 (replicate 128 initial) long = Some long1. Proof. vm_compute. reflexivity. Qed.
Lemma long1_a_ok : v1_steps 128 long1 long_a = Some long1_a. Proof. vm_compute. reflexivity. Qed.
Lemma long1_b_ok : v1_steps 128 long1 long_b = Some long1_b. Proof. vm_compute. reflexivity. Qed.
Lemma short1_ok : v1_steps 128 (replicate 128 initial) short = Some short1. Proof. vm_compute. reflexivity. Qed.
Lemma short1_a_ok : v1_steps 128 short1 short_a = Some short1_a. Proof. vm_compute. reflexivity. Qed.
Lemma short1_b_ok : v1_steps 128 short1 short_b = Some short1_b. Proof. vm_compute. reflexivity. Qed.

(** *** SuperMinHash32V2 *)
Definition none2 : v2_state := V2 [] 0 [] [] [].
Definition start2 : v2_state := Eval vm_compute in default none2 (v2_start 128).
Definition long2 : v2_state := Eval vm_compute in default none2 (v2_steps 128 0 long start2).
Definition long2_a : v2_state := Eval vm_compute in default none2 (v2_steps 128 33 long_a long2).
Definition long2_b : v2_state := Eval vm_compute in default none2 (v2_steps 128 33 long_b long2).
Definition short2 : v2_state := Eval vm_compute in default none2 (v2_steps 128 0 short start2).
Definition short2_a : v2_state := Eval vm_compute in default none2 (v2_steps 128 4 short_a short2).
Definition short2_b : v2_state := Eval vm_compute in default none2 (v2_steps 128 4 short_b short2).
Lemma start2_ok : v2_start 128 = Some start2. Proof. vm_compute. reflexivity. Qed.
Lemma long2_ok : v2_steps 128 0 long start2 = Some long2. Proof. vm_compute. reflexivity. Qed.
Lemma long2_a_ok : v2_steps 128 33 long_a long2 = Some long2_a. Proof. vm_compute. reflexivity. Qed.
Lemma long2_b_ok : v2_steps 128 33 long_b long2 = Some long2_b. Proof. vm_compute. reflexivity. Qed.
Lemma short2_ok : v2_steps 128 0 short start2 = Some short2. Proof. vm_compute. reflexivity. Qed.
Lemma short2_a_ok : v2_steps 128 4 short_a short2 = Some short2_a. Proof. vm_compute. reflexivity. Qed.
Lemma short2_b_ok : v2_steps 128 4 short_b short2 = Some short2_b. Proof. vm_compute. reflexivity. Qed.

(** The estimates are 107/128 and 86/128 ... *)
Theorem C98_v1 (fuel : nat) : 30 <= fuel ->
  super_similarity (std_v1 fuel 128) (whitespace_split S10) (whitespace_split S11)
    = Ok (f64_div (f64_of_N 107) (f64_of_N 128)) /\
  super_similarity (std_v1 fuel 128) (whitespace_split S1) (whitespace_split S3)
    = Ok (f64_div (f64_of_N 86) (f64_of_N 128)).
Proof.
  intros Hf. unfold super_similarity.
  rewrite (v1_computed fuel 128 _ _ _ _ _ Hf long_a_ok long1_ok long1_a_ok).
  rewrite (v1_computed fuel 128 _ _ _ _ _ Hf long_b_ok long1_ok long1_b_ok).
  rewrite (v1_computed fuel 128 _ _ _ _ _ Hf short_a_ok short1_ok short1_a_ok).
  rewrite (v1_computed fuel 128 _ _ _ _ _ Hf short_b_ok short1_ok short1_b_ok).
  split; vm_compute; reflexivity.
Qed.
Print Assumptions C98_v1.

(** ... and 106/128 and 78/128. *)
Theorem C98_v2 (fuel : nat) : 30 <= fuel ->
  super_similarity (std_v2 fuel 128) (whitespace_split S10) (whitespace_split S11)
    = Ok (f64_div (f64_of_N 106) (f64_of_N 128)) /\
  super_similarity (std_v2 fuel 128) (whitespace_split S1) (whitespace_split S3)
    = Ok (f64_div (f64_of_N 78) (f64_of_N 128)).
Proof.
  intros Hf. unfold super_similarity.
  rewrite (v2_computed fuel 128 _ _ _ _ _ _ Hf long_a_ok start2_ok long2_ok long2_a_ok).
  rewrite (v2_computed fuel 128 _ _ _ _ _ _ Hf long_b_ok start2_ok long2_ok long2_b_ok).
  rewrite (v2_computed fuel 128 _ _ _ _ _ _ Hf short_a_ok start2_ok short2_ok short2_a_ok).
  rewrite (v2_computed fuel 128 _ _ _ _ _ _ Hf short_b_ok start2_ok short2_ok short2_b_ok).
  split; vm_compute; reflexivity.
Qed.
Print Assumptions C98_v2.

(** So both tests pass. *)
Theorem C98_tests (fuel : nat) : 30 <= fuel ->
  test_super_min_hash_v1 fuel = Ok (true, true) /\ test_super_min_hash_v2 fuel = Ok (true, true).
Proof.
  intros Hf. unfold test_super_min_hash_v1, test_super_min_hash_v2, test_min_hash.
  destruct (C98_v1 fuel Hf) as [-> ->]. destruct (C98_v2 fuel Hf) as [-> ->].
  split; vm_compute; reflexivity.
Qed.
Print Assumptions C98_tests.

(** The assertions bound the error on both sides: they reject a hasher whose signatures never
    agree and one whose signatures always do. *)
Theorem C98_tests_reject :
  test_min_hash (fun ts => Ok [hash_str (concat ts)]) = Ok (false, false) /\
  test_min_hash (fun ts => Ok [7%N]) = Ok (false, false).
Proof. split; vm_compute; reflexivity. Qed.
Print Assumptions C98_tests_reject.

(** The first assertion compares with 0.75; the exact similarity of the two texts is 32/40. *)
Theorem C98_exact :
  compute_jaccard_similarity (whitespace_split S10) (whitespace_split S11) = f32_div (f32_of_N 32) (f32_of_N 40) /\
  compute_jaccard_similarity (whitespace_split S1) (whitespace_split S3) = f32_div (f32_of_N 4) (f32_of_N 6).
Proof. split; vm_compute; reflexivity. Qed.
Print Assumptions C98_exact.

(** *** The methods the variants inherit, for all texts *)

(** With the first variant the similarity is the share of agreeing positions, the same in both
    directions, and 1 for documents with the same tokens. *)
Theorem C98_similarity_v1 (fuel m : nat) (xs ys : list (list N)) : (N.of_nat m <= 2 ^ 24)%N ->
  exists sx sy, std_v1 fuel m xs = Ok sx /\ std_v1 fuel m ys = Ok sy /\ length sx = m /\ length sy = m /\
    super_similarity (std_v1 fuel m) xs ys = Ok (sim sx sy) /\
    super_similarity (std_v1 fuel m) ys xs = Ok (sim sx sy).
Proof. exact (v1_similarity fuel m xs ys). Qed.
Print Assumptions C98_similarity_v1.
Theorem C98_same_v1 (fuel m : nat) (xs ys : list (list N)) : 0 < m -> (N.of_nat m <= 2 ^ 24)%N ->
  (forall t, t ∈ xs <-> t ∈ ys) -> super_similarity (std_v1 fuel m) xs ys = Ok f64_one.
Proof. exact (v1_same fuel m xs ys). Qed.
Print Assumptions C98_same_v1.

(** With the second there is no similarity without hashes ... *)
Theorem C98_similarity_v2 (fuel m : nat) (xs ys : list (list N)) : (N.of_nat m <= 2 ^ 24)%N -> 0 < m ->
  exists sx sy, std_v2 fuel m xs = Ok sx /\ std_v2 fuel m ys = Ok sy /\ length sx = m /\ length sy = m /\
    super_similarity (std_v2 fuel m) xs ys = Ok (sim sx sy) /\
    super_similarity (std_v2 fuel m) ys xs = Ok (sim sx sy).
Proof. exact (v2_similarity fuel m xs ys). Qed.
Print Assumptions C98_similarity_v2.
Theorem C98_zero_v2 (fuel : nat) (xs ys : list (list N)) : super_similarity (std_v2 fuel 0) xs ys = Panic.
Proof. reflexivity. Qed.
Print Assumptions C98_zero_v2.

(** ... and any two documents of one token, or of two tokens the second of which they share, have
    similarity 1. *)
Theorem C98_single_v2 (fuel m : nat) (x y : list N) : 0 < m -> (N.of_nat m <= 2 ^ 24)%N ->
  super_similarity (std_v2 fuel m) [x] [y] = Ok f64_one.
Proof. exact (v2_single fuel m x y). Qed.
Print Assumptions C98_single_v2.
Theorem C98_second_v2 (fuel m : nat) (x y t : list N) : 0 < m -> (N.of_nat m <= 2 ^ 24)%N ->
  super_similarity (std_v2 fuel m) [x; t] [y; t] = Ok f64_one.
Proof. exact (v2_second fuel m x y t). Qed.
Print Assumptions C98_second_v2.

(** The same tokens in another order need not have similarity 1. *)
Theorem C98_order_v2_refuted : exists (fuel m : nat) (x y : list N) (v : f64),
  super_similarity (std_v2 fuel m) [x; y] [y; x] = Ok v /\ v = f64_div (f64_of_N 3) (f64_of_N 4).
Proof.
  exists 30, 4, (text "cool"), (text "great"). eexists. split; [|reflexivity]. vm_compute. reflexivity.
Qed.
Print Assumptions C98_order_v2_refuted.

(** Bulk creation, under every schedule. *)
Theorem C98_bulk {U} (create : list U -> res (list N)) (sched : list nat) (batch : list (list U)) :
  super_bulk create sched batch = mapM create batch.
Proof. exact (par_map_mapM create sched batch). Qed.
Print Assumptions C98_bulk.

(** ** Concrete cases *)
Example ex_v1 : exists s s', std_v1 30 4 [text "cool"] = Ok s /\ std_v1 30 4 [text "great"] = Ok s' /\ s ≠ s' /\
  std_v1 30 4 [text "cool"; text "great"] = Ok (zip_with N.min s s') /\
  super_similarity (std_v1 30 4) [text "cool"; text "great"] [text "great"; text "cool"; text "great"] = Ok f64_one.
Proof.
  eexists _, _. split; [vm_compute; reflexivity|]. split; [vm_compute; reflexivity|]. split; [discriminate|].
  split; vm_compute; reflexivity.
Qed.
Example ex_v2 : std_v2 30 4 [text "cool"] = Ok [0; 100000000; 100000000; 100000000]%N /\
  std_v2 30 4 [text "great"] = Ok [0; 100000000; 100000000; 100000000]%N /\ std_v2 30 0 [text "cool"] = Panic.
Proof. split; [vm_compute; reflexivity|]. split; [vm_compute; reflexivity|reflexivity]. Qed.
Example ex_test : (take 5 (fast_str <$> whitespace_split S10) = take 5 long) /\ length long = 33 /\ length long_a = 6 /\
  length long_b = 8 /\ v1_draws 9 (hash_str (text "If")) 128 = None.
Proof. vm_compute. split_and!; reflexivity. Qed.
