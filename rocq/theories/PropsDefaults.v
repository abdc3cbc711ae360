(** Property C79: the documented examples and the unit tests that hash text, with the hashers the
    library makes by default.

    The coefficients come from the generator of Rng.v and the token hashes from Fnv.v. The keys of
    the band hash are random in every run: the theorems hold for every band hash, every container,
    every schedule and every order in which sets are enumerated. *)
From stdpp Require Import base list gmap.
From Coq Require Import NArith Ascii String Lia.
From Verif Require Import Base Par Float Container MinHashIndex SpecIndex MinHasher Fnv Text Jaccard.
From Verif Require Import Params StringIndex SpecString FileLines SpecAngle SpecRecall Rng RngDraws ExampleIndex.
From Verif Require Import Similarity FastHash RecallFacts PropsRecall PropsScan ContainerFacts MinHashIndexThms MinHashIndexFacts StringIndexFacts.
Local Open Scope nat_scope.
Local Open Scope string_scope.
Local Open Scope list_scope.

(** The bytes of a string, and [str::to_lowercase] of a string of ASCII characters. *)
Definition bytes (s : string) : list N := N_of_ascii <$> list_ascii_of_string s.
Definition ascii_lowercase (l : list N) : list N :=
  (fun c => if ((65 <=? c) && (c <=? 90))%N then (c + 32)%N else c) <$> l.
(** [whitespace_split]; also [str::split_whitespace] for the strings below, which have no
    punctuation where the tests call that function. *)
Definition words (s : string) : list (list N) := whitespace_split (bytes s).

(** [sigs] are the signatures which [MinHasherX::new(n)] makes of the token lists; nine rounds
    suffice for every number drawn. *)
Definition made (k : hasher_kind) (n : nat) (docs : list (list (list N))) (sigs : list (list N)) : Prop :=
  exists h, (forall fuel, 9 <= fuel -> std_hasher_new fuel k n = Some h) /\
    mapM (create_signature k hash_str h) docs = Some sigs.
Definition make (k : hasher_kind) (n : nat) (docs : list (list (list N))) : option (list (list N)) :=
  h ← std_hasher_new 9 k n; mapM (create_signature k hash_str h) docs.
Lemma made_make k n docs sigs : make k n docs = Some sigs -> made k n docs sigs.
Proof.
  unfold make, made. destruct (std_hasher_new 9 k n) as [h|] eqn:E; [|done]. intros Hm. exists h.
  split; [|done]. intros fuel Hf. exact (std_hasher_fuel 9 fuel k n 3 h Hf E).
Qed.
Lemma make_hasher k n docs sigs h :
  std_hasher_new 9 k n = Some h -> make k n docs = Some sigs -> mapM (create_signature k hash_str h) docs = Some sigs.
Proof. unfold make. destruct (std_hasher_new 9 k n) as [h'|]; [|done]. by intros [= ->]. Qed.

(** The same computed without division. *)
Definition make_fast (k : hasher_kind) (n : nat) (docs : list (list (list N))) : option (list (list N)) :=
  h ← std_hasher_new 9 k n; mapM (fast_signature fast_str k h) docs.
Lemma make_fast_ok k n docs : make_fast k n docs = make k n docs.
Proof.
  unfold make_fast, make. destruct (std_hasher_new 9 k n) as [h|]; [|done]. cbn [mbind option_bind].
  apply mapM_ext'. intros d. apply fast_signature_ext, fast_str_ok.
Qed.
Lemma made_fast k n docs sigs : make_fast k n docs = Some sigs -> made k n docs sigs.
Proof. rewrite make_fast_ok. apply made_make. Qed.

(** Documents numbered from [i] on. *)
Definition inserts (i : N) (sigs : list (list N)) : list (op N N) :=
  imap (fun j s => Insert (i + N.of_nat j)%N s) sigs.

(** *** lib.rs:14-37, minhash_index.rs:284-314 and 893-918 *)
Definition corpus : list string :=
  ["This is the first document.";
   "This document is the second document.";
   "And this is the third document.";
   "Is this the first document?";
   "This not the first nor the second nor the third, but the fourth document"].
Definition corpus_words : list (list (list N)) := (fun s => whitespace_split (ascii_lowercase (bytes s))) <$> corpus.
Definition corpus_sigs : list (list N) := Eval vm_compute in default [] (make_fast MinHasher32 (42 * 3) corpus_words).

Theorem C79_example (k : container_kind) (bh : list N -> N) :
  exists sigs, made MinHasher32 (42 * 3) corpus_words sigs /\
    Forall2 (fun q ans => query (container k N) bh (after k bh 42 3 half (inserts 0 sigs)) q = Some (list_to_set ans))
      sigs [[0;1;2;3]; [0;1;2;3]; [0;1;2;3]; [0;1;2;3]; [4]]%N.
Proof.
  exists corpus_sigs. split; [apply made_fast; vm_compute; reflexivity|].
  repeat (apply Forall2_cons_2; [apply scanned_query; vm_compute; reflexivity|]). apply Forall2_nil_2.
Qed.

(** *** minhash_index.rs:863-890 [test_lsh_index] and 972-1007 [test_lsh_index_batch_construction] *)
Definition sentences : list string :=
  ["local sensitive hashing is cool"; "local sensitive hashing is great"; "local sensitive hashing is awesome";
   "we all scream for ice cream"; "we all scream for ice cream sandwich"; "i like ice cream sandwich"].
Definition sentence_sigs (k : hasher_kind) : list (list N) :=
  match k with
  | MinHasher64V1 => ltac:(let r := eval vm_compute in (default [] (make_fast MinHasher64V1 198 (words <$> sentences))) in exact r)
  | MinHasher32 => ltac:(let r := eval vm_compute in (default [] (make_fast MinHasher32 198 (words <$> sentences))) in exact r)
  | _ => []
  end.
Definition at_sentence (sigs : list (list N)) (i : nat) : list N := nth i sigs [].

Theorem C79_lsh_index (powf : f64 -> f64 -> f64) (k : container_kind) (bh : list N -> N) : accurate powf ->
  exists b r sigs, calculate_minhash_params powf half 200 = Some (b, r) /\
    made MinHasher64V1 (b * r) (words <$> sentences) sigs /\
    let ops := inserts 1 sigs in
    let q := at_sentence sigs 1 in
    index_size (container k N) (after k bh b r half ops) = 6 /\
    query (container k N) bh (after k bh b r half ops) q = Some {[1; 2; 3]}%N /\
    index_size (container k N) (after k bh b r half (ops ++ [Remove 2%N])) = 5 /\
    query (container k N) bh (after k bh b r half (ops ++ [Remove 2%N])) q = Some {[1; 3]}%N.
Proof.
  intros Hpow. exists 66, 3, (sentence_sigs MinHasher64V1).
  split; [apply (documented powf Hpow 1 2 200 3 4503599627370496); first [lia|vm_compute; reflexivity|vm_compute; lia]|].
  split; [apply made_fast; vm_compute; reflexivity|]. cbn zeta. unfold index_size. rewrite !sigs_after.
  split; [vm_compute; reflexivity|]. split; [|split; [vm_compute; reflexivity|]].
  - rewrite (scanned_query k bh 66 3 half _ _ [1;2;3]%N) by (vm_compute; reflexivity). f_equal. set_solver.
  - rewrite (scanned_query k bh 66 3 half _ _ [1;3]%N) by (vm_compute; reflexivity). f_equal. set_solver.
Qed.

Theorem C79_batch_construction (powf : f64 -> f64 -> f64) (k : container_kind) (bh : list N -> N) (sched : list nat) :
  accurate powf ->
  exists b r sigs, calculate_minhash_params powf half 200 = Some (b, r) /\
    made MinHasher32 (b * r) (words <$> sentences) sigs /\
    let m := after k bh b r half [ParBulkInsertPairs sched (zip [1;2;3;4;5;6]%N sigs)] in
    index_size (container k N) m = 6 /\
    query (container k N) bh m (at_sentence sigs 1) = Some {[1; 2; 3]}%N.
Proof.
  intros Hpow. exists 66, 3, (sentence_sigs MinHasher32).
  split; [apply (documented powf Hpow 1 2 200 3 4503599627370496); first [lia|vm_compute; reflexivity|vm_compute; lia]|].
  split; [apply made_fast; vm_compute; reflexivity|]. cbn zeta. unfold index_size. rewrite !sigs_after.
  split; [vm_compute; reflexivity|].
  rewrite (scanned_query k bh 66 3 half _ _ [1;2;3]%N) by (vm_compute; reflexivity). f_equal. set_solver.
Qed.

(** *** minhash_index.rs:1087-1118 [test_duplidate_ids] *)
Definition dup_ops (s1 s4 s6 : list N) : list (op N N) := [Insert 1%N s1; Insert 1%N s4; Insert 6%N s6; Remove 1%N].
Theorem C79_duplicate_ids (powf : f64 -> f64 -> f64) (k : container_kind) (bh : list N -> N) (order : gset N -> list N) :
  accurate powf -> is_order order ->
  exists b r s1 s4 s6, calculate_minhash_params powf half 200 = Some (b, r) /\
    made MinHasher64V1 (b * r) (words <$> [sentences !!! 0; sentences !!! 3; sentences !!! 5]) [s1; s4; s6] /\
    let at_ n := after k bh b r half (take n (dup_ops s1 s4 s6)) in
    let one n := query_one (container k N) bh order (at_ n) in
    one 1 s1 = Some (Some (1%N, f64_one)) /\
    index_size (container k N) (at_ 2) = 1 /\ one 2 s1 = Some None /\ one 2 s4 = Some (Some (1%N, f64_one)) /\
    index_size (container k N) (at_ 3) = 2 /\
    query (container k N) bh (at_ 4) s1 = Some ∅ /\ one 4 s1 = Some None.
Proof.
  intros Hpow Ho. set (sg := sentence_sigs MinHasher64V1).
  exists 66, 3, (at_sentence sg 0), (at_sentence sg 3), (at_sentence sg 5).
  split; [apply (documented powf Hpow 1 2 200 3 4503599627370496); first [lia|vm_compute; reflexivity|vm_compute; lia]|].
  split; [apply made_fast; vm_compute; reflexivity|].
  refine (C77_test_duplicate_ids k bh 66 3 order (at_sentence sg 0) (at_sentence sg 3) (at_sentence sg 5) Ho _ _ _ _ _ _ _ _);
    first [lia|vm_compute; reflexivity|vm_compute; lia|vm_compute; discriminate].
Qed.

(** *** minhash_index.rs:514-529, the example of [query_one] *)
Definition letters (s : string) : list (list N) := (fun c => [N_of_ascii c]) <$> list_ascii_of_string s.
Definition three_fifths : f64 := f64_div (f64_of_N 6) (f64_of_N 10).
Definition letter_sigs : list (list N) :=
  Eval vm_compute in default [] (make_fast MinHasher16 (33 * 3) (letters <$> ["abcdef"; "abcdeg"; "abcd"])).

Lemma best_one k bh nb bw th (ops : list (op N N)) q order id s :
  f64_valid th = true -> is_order order -> spec_map (nb * bw) ops !! id = Some s ->
  (bool_decide (length q = nb * bw) && f64_gt (sim s q) th && shares nb bw s q &&
   forallb (fun p : N * list N => bool_decide (length p.2 = nb * bw) &&
     (bool_decide (p.1 = id) || f64_gt (sim s q) (sim p.2 q))) (map_to_list (spec_map (nb * bw) ops))) = true ->
  query_one (container k N) bh order (after k bh nb bw th ops) q = Some (Some (id, sim s q)).
Proof.
  intros Hth Ho Hs. rewrite !andb_true_iff, forallb_forall. intros [[[Hq%bool_decide_eq_true_1 Hgt] Hsh] Hall].
  assert (Hm : forall id' s', spec_map (nb * bw) ops !! id' = Some s' ->
    length s' = nb * bw /\ (id' = id \/ f64_gt (sim s q) (sim s' q) = true)).
  { intros id' s' Hs'. specialize (Hall (id', s')). rewrite <- elem_of_list_In, elem_of_map_to_list in Hall.
    specialize (Hall Hs'). cbn in Hall. apply andb_true_iff in Hall as [Hl%bool_decide_eq_true_1 Hall].
    split; [done|]. apply orb_true_iff in Hall as [Hall%bool_decide_eq_true_1|Hall]; auto. }
  assert (Hband : exists i, i < nb /\ share_band bw i s q).
  { unfold shares in Hsh. apply existsb_exists in Hsh as (i & Hi & Hb). apply in_seq in Hi.
    apply bool_decide_eq_true_1 in Hb. exists i. split; [lia|]. intros j Hj. unfold nth_band in Hb.
    apply (f_equal (fun l => l !! (j - i * bw))) in Hb. rewrite !lookup_take, !lookup_drop in Hb by lia.
    by replace (i * bw + (j - i * bw)) with j in Hb by lia. }
  destruct Hband as (i & Hi & Hb).
  destruct (query_one_any k bh nb bw th ops q order) as (r & -> & Hr); try done.
  { intros id' s' Hs'. by apply (Hm id' s'). }
  destruct r as [[id' v]|].
  - destruct Hr as (s' & Hs' & -> & _ & Hbest). destruct (Hm id' s' Hs') as [_ [->|Hg]].
    + rewrite Hs in Hs'. by injection Hs' as <-.
    + specialize (Hbest id s i Hs Hi Hb). congruence.
  - specialize (Hr id s i Hs Hi Hb). congruence.
Qed.

Theorem C79_query_one (k : container_kind) (bh : list N -> N) (order : gset N -> list N) : is_order order ->
  exists s1 s2 s3 v, made MinHasher16 (33 * 3) (letters <$> ["abcdef"; "abcdeg"; "abcd"]) [s1; s2; s3] /\
    query_one (container k N) bh order (after k bh 33 3 three_fifths [Insert 1%N s1; Insert 3%N s3]) s2
      = Some (Some (1%N, v)) /\
    f64_lt (SFabs (f64_sub v (f64_div (f64_of_N 71) (f64_of_N 100)))) (f64_div (f64_of_N 5) (f64_of_N 100)) = true.
Proof.
  intros Ho. exists (at_sentence letter_sigs 0), (at_sentence letter_sigs 1), (at_sentence letter_sigs 2).
  eexists. split; [apply made_fast; vm_compute; reflexivity|].
  split; [apply best_one; [vm_compute; reflexivity|done|vm_compute; reflexivity|vm_compute; reflexivity]|].
  vm_compute. reflexivity.
Qed.

(** *** minhash_index.rs:667-684, the example of [remove] *)
Definition minhashed : list string := ["This is the first minhashed document"; "This is the second minhashed document"].
Definition minhashed_sigs : list (list N) :=
  Eval vm_compute in default [] (make_fast MinHasher16 (33 * 3) (words <$> minhashed)).

Theorem C79_remove (k : container_kind) (bh : list N -> N) :
  exists s1 s2, made MinHasher16 (33 * 3) (words <$> minhashed) [s1; s2] /\
    let at_ ops := after k bh 33 3 three_fifths ([Insert 1%N s1; Insert 2%N s2] ++ ops) in
    query (container k N) bh (at_ []) s1 = Some {[1; 2]}%N /\
    (step (container k N) bh (at_ []) (Remove 1%N)).2 = OSig (Some s1) /\
    (step (container k N) bh (at_ [Remove 1%N]) (Remove 1%N)).2 = OSig None.
Proof.
  exists (at_sentence minhashed_sigs 0), (at_sentence minhashed_sigs 1).
  split; [apply made_fast; vm_compute; reflexivity|]. cbn zeta. split; [|split].
  - rewrite (scanned_query k bh 33 3 three_fifths _ _ [1;2]%N) by (vm_compute; reflexivity). f_equal. set_solver.
  - destruct (step_inv (container k N) (container_laws_all k) bh 33 3 three_fifths _ _ (Remove 1%N)
      (after_inv k bh 33 3 three_fifths ([Insert 1%N (at_sentence minhashed_sigs 0); Insert 2%N (at_sentence minhashed_sigs 1)] ++ []))) as [_ ->].
    vm_compute. reflexivity.
  - destruct (step_inv (container k N) (container_laws_all k) bh 33 3 three_fifths _ _ (Remove 1%N)
      (after_inv k bh 33 3 three_fifths ([Insert 1%N (at_sentence minhashed_sigs 0); Insert 2%N (at_sentence minhashed_sigs 1)] ++ [Remove 1%N]))) as [_ ->].
    vm_compute. reflexivity.
Qed.

(** *** min_hasher.rs:132-165 and min_hasher64.rs:138-154: the estimates *)
Definition s10 : string := "If you're still searching, we can visit a few open houses together in the next few weeks. It might help give clarity on what you're looking for. What do you think? - Gail's assistant w/eXp Realty".
Definition s11 : string := "If you're still searching, we can visit a few open houses together in the next few weeks. It might help give clarity on what you're looking for. What do you think? - Elle's assistant w/Bright Birch Real Estate".
(** [x as f32], and [f32::abs(x - y) < z] for a literal [z] of hundredths. *)
Definition f64_as_f32 (x : f64) : f32 :=
  match x with
  | S754_finite s m e => binary_round 24 128 s m e
  | x => x
  end.
Definition close (x y : f32) (hundredths : N) : bool :=
  SFltb (SFabs (f32_sub x y)) (f32_div (f32_of_N hundredths) (f32_of_N 100)).

(** The estimates are [a/n] and [c/n] and the exact similarities [j/l] and [i/g]. *)
Definition estimates_test (k : hasher_kind) (n : nat) (tolerance a c : N) : Prop :=
  exists h, (forall fuel, 9 <= fuel -> std_hasher_new fuel k n = Some h) /\
    exists v w, compute_similarity k hash_str h (words s10) (words s11) = Some v /\
      compute_similarity k hash_str h (words (sentences !!! 0)) (words (sentences !!! 2)) = Some w /\
      v = f64_div (f64_of_N a) (f64_of_N (N.of_nat n)) /\ w = f64_div (f64_of_N c) (f64_of_N (N.of_nat n)) /\
      close (f64_as_f32 v) (f32_div (f32_of_N 3) (f32_of_N 4)) tolerance = true /\
      close (f64_as_f32 w) (compute_jaccard_similarity (words (sentences !!! 0)) (words (sentences !!! 2))) tolerance = true.

Definition fast_similarity (k : hasher_kind) (m : hasher) (xs ys : list (list N)) : res f64 :=
  s1 ← fast_signature fast_str k m xs; s2 ← fast_signature fast_str k m ys; compute_minhash_similarity s1 s2.
Lemma fast_similarity_ok k m xs ys : fast_similarity k m xs ys = compute_similarity k hash_str m xs ys.
Proof. unfold fast_similarity, compute_similarity. by rewrite !(fast_signature_ext fast_str hash_str) by apply fast_str_ok. Qed.

Lemma estimates k n tolerance a c :
  (h ← std_hasher_new 9 k n;
   v ← fast_similarity k h (words s10) (words s11);
   w ← fast_similarity k h (words (sentences !!! 0)) (words (sentences !!! 2));
   Some (v, w)) = Some (f64_div (f64_of_N a) (f64_of_N (N.of_nat n)), f64_div (f64_of_N c) (f64_of_N (N.of_nat n))) ->
  close (f64_as_f32 (f64_div (f64_of_N a) (f64_of_N (N.of_nat n)))) (f32_div (f32_of_N 3) (f32_of_N 4)) tolerance = true ->
  close (f64_as_f32 (f64_div (f64_of_N c) (f64_of_N (N.of_nat n))))
    (compute_jaccard_similarity (words (sentences !!! 0)) (words (sentences !!! 2))) tolerance = true ->
  estimates_test k n tolerance a c.
Proof.
  intros E H1 H2. destruct (std_hasher_new 9 k n) as [h|] eqn:Eh; [|done]. cbn [mbind option_bind] in E.
  rewrite !fast_similarity_ok in E.
  exists h. split; [intros fuel Hf; exact (std_hasher_fuel 9 fuel k n 3 h Hf Eh)|].
  destruct (compute_similarity k hash_str h (words s10) (words s11)) as [v|]; [|done]. cbn [mbind option_bind] in E.
  destruct (compute_similarity k hash_str h (words (sentences !!! 0)) (words (sentences !!! 2))) as [w|]; [|done].
  cbn [mbind option_bind] in E. injection E as -> ->. eauto 10.
Qed.

Theorem C79_estimates :
  estimates_test MinHasher32 128 15 99 86 /\ estimates_test MinHasher16 128 15 99 86 /\
  estimates_test MinHasher8 128 15 100 89 /\ estimates_test MinHasher64V1 200 10 157 137.
Proof. split; [|split; [|split]]; apply estimates; vm_compute; reflexivity. Qed.

(** *** string_index.rs:116-151 [test_load_from_file] *)
Definition strings : list string :=
  ["locality sensitive hashing is a cool algorithm"; "locality sensitive hashing is a great algorithm";
   "locality sensitive hashing is a awesome algorithm"; "we all scream for ice cream"; "we all scream for ice cream";
   "we all scream for ice cream sandwich"].
(** The bytes written, each string with a line feed, and the reader of them. *)
Definition string_file : reader := Reader (Some <$> concat ((fun s => bytes s ++ [10%N]) <$> strings)) false.
Definition string_sigs : list (list N) :=
  Eval vm_compute in default [] (make_fast MinHasher64V1 (42 * 4) (words <$> strings)).

Lemma filter_all {A} (P : A -> Prop) `{forall x, Decision (P x)} (l : list A) : (forall x, x ∈ l -> P x) -> filter P l = l.
Proof.
  induction l as [|x l IH]; intros Hl; [done|]. rewrite filter_cons_True by (apply Hl; by left).
  f_equal. apply IH. intros y Hy. apply Hl. by right.
Qed.
Lemma filter_none {A} (P : A -> Prop) `{forall x, Decision (P x)} (l : list A) : (forall x, x ∈ l -> ~ P x) -> filter P l = [].
Proof.
  induction l as [|x l IH]; intros Hl; [done|]. rewrite filter_cons_False by (apply Hl; by left).
  apply IH. intros y Hy. apply Hl. by right.
Qed.

Theorem C79_string_index (draws : N -> nat -> nat -> N) (bh : list N -> N) (order : gset N -> list N) :
  std_hasher_new 9 MinHasher64V1 (42 * 4) = Some (new_with_hasher draws (42 * 4)) -> is_order order ->
  let s := string_after hash_str draws bh 42 4 half [SLoadLines (file_lines string_file)] in
  string_size s = 6%N /\
  exists r, string_query hash_str bh order s (bytes (strings !!! 0)) = Some r /\
    r ≡ₚ bytes <$> [strings !!! 0; strings !!! 1; strings !!! 2].
Proof.
  intros Hh Ho s. subst s.
  assert (Hf : file_lines string_file = Some <$> (bytes <$> strings)) by (vm_compute; reflexivity).
  assert (Hm : mapM (create_signature MinHasher64V1 hash_str (new_with_hasher draws (42 * 4))) (words <$> strings) = Some string_sigs).
  { apply (make_hasher _ _ _ _ _ Hh). rewrite <- make_fast_ok. vm_compute. reflexivity. }
  clear Hh.
  assert (Hsig : forall i, i < 6 -> sig_of hash_str draws 42 4 (bytes (strings !!! i)) = string_sigs !!! i).
  { intros i Hi. unfold sig_of. apply mapM_Some in Hm. rewrite Forall2_fmap_l in Hm.
    assert (Hi' : i < length strings) by exact Hi.
    destruct (lookup_lt_is_Some_2 strings i Hi') as [t Ht].
    destruct (Forall2_lookup_l _ _ _ _ _ Hm Ht) as (sg & Hsg & E).
    rewrite (list_lookup_total_correct _ _ _ Ht), (list_lookup_total_correct _ _ _ Hsg).
    unfold words in E. by rewrite E. }
  set (ops := [SLoadLines (file_lines string_file)]).
  assert (Hadd : added ops = bytes <$> strings).
  { unfold added, ops. cbn [fmap list_fmap adds readable concat]. rewrite Hf, app_nil_r.
    generalize (bytes <$> strings) as l. induction l as [|t l IH]; [done|]. cbn. by rewrite IH. }
  assert (Hlive : live ops = bytes <$> strings).
  { rewrite lossless_live; [done|]. apply serial_lossless. by repeat constructor. }
  destruct (after_sinv hash_str draws bh 42 4 half ops) as [Hsize _]. rewrite Hsize, Hadd. split; [done|].
  destruct (string_query_bounds hash_str draws bh 42 4 half ops (bytes (strings !!! 0)) order Ho) as (r & -> & Hup & Hlow & _).
  exists r. split; [done|]. rewrite Hlive in Hup, Hlow.
  assert (Hs : forall i, i < 6 -> f64_ge (sim (string_sigs !!! i) (string_sigs !!! 0)) half = (i <? 3)%nat).
  { intros i Hi. do 6 (destruct i as [|i]; [vm_compute; reflexivity|]). lia. }
  assert (Hb : forall i, i < 3 -> meets hash_str draws bh 42 4 (bytes (strings !!! 0)) (bytes (strings !!! i))).
  { intros i Hi. unfold meets. rewrite !Hsig by lia.
    assert (Hsh : shares 42 4 (string_sigs !!! i) (string_sigs !!! 0) = true).
    { do 3 (destruct i as [|i]; [vm_compute; reflexivity|]). lia. }
    unfold shares in Hsh. apply existsb_exists in Hsh as (j & Hj & E). apply bool_decide_eq_true_1 in E.
    apply Exists_exists. exists j. split; [by apply elem_of_list_In|]. by rewrite E. }
  assert (Hsim : forall i, i < 6 -> similar hash_str draws 42 4 half (bytes (strings !!! 0)) (bytes (strings !!! i)) <-> i < 3).
  { intros i Hi. unfold similar. rewrite !Hsig by lia. rewrite Hs by lia. apply Nat.ltb_lt. }
  assert (Ecut : bytes <$> strings = (bytes <$> [strings !!! 0; strings !!! 1; strings !!! 2]) ++
    (bytes <$> [strings !!! 3; strings !!! 4; strings !!! 5])) by reflexivity.
  rewrite Ecut in Hup, Hlow. clear Ecut Hf Hm Hadd Hlive Hsize Hs.
  assert (Hyes : forall t, t ∈ (bytes <$> [strings !!! 0; strings !!! 1; strings !!! 2]) -> exists i, i < 3 /\ t = bytes (strings !!! i)).
  { intros t Ht. cbn [fmap list_fmap] in Ht. repeat (apply elem_of_cons in Ht as [->|Ht]); [exists 0; split; [lia|done]|exists 1; split; [lia|done]|exists 2; split; [lia|done]|].
    by apply elem_of_nil in Ht. }
  assert (Hno : forall t, t ∈ (bytes <$> [strings !!! 3; strings !!! 4; strings !!! 5]) -> exists i, 3 <= i < 6 /\ t = bytes (strings !!! i)).
  { intros t Ht. cbn [fmap list_fmap] in Ht. repeat (apply elem_of_cons in Ht as [->|Ht]); [exists 3; split; [lia|done]|exists 4; split; [lia|done]|exists 5; split; [lia|done]|].
    by apply elem_of_nil in Ht. }
  rewrite filter_app in Hup, Hlow.
  rewrite filter_all in Hup; [rewrite filter_all in Hlow|].
  - rewrite !filter_none, !app_nil_r in Hup, Hlow.
    + apply (submseteq_Permutation_length_eq _ _); [|done]. apply Nat.le_antisymm; by apply submseteq_length.
    + intros t (i & Hi & ->)%Hno [E _]. apply Hsim in E; lia.
    + intros t (i & Hi & ->)%Hno E. apply Hsim in E; lia.
  - intros t (i & Hi & ->)%Hyes. split; [apply Hsim; lia|by apply Hb].
  - intros t (i & Hi & ->)%Hyes. apply Hsim; lia.
Qed.

(** The hypotheses are met. *)
Lemma draws_exist fuel k n :
  (match std_hasher_new fuel k n with Some _ => true | None => false end) = true ->
  exists draws, std_hasher_new fuel k n = Some (new_with_hasher draws n).
Proof.
  unfold std_hasher_new. destruct (std_hasher fuel k n 3) as [h|] eqn:E; [|done]. intros _.
  destruct (std_coefficients fuel k n 3 h E) as (_ & _ & _ & _ & _ & [draws ->] & _). by exists draws.
Qed.
Example C79_draws_example : exists draws, std_hasher_new 9 MinHasher64V1 (42 * 4) = Some (new_with_hasher draws (42 * 4)).
Proof. apply draws_exist. vm_compute. reflexivity. Qed.
Example C79_hypotheses_example : accurate pow_exact /\ is_order (Id := N) elements.
Proof. split; [exact pow_exact_accurate|by intros s]. Qed.
(** Some of the signatures and similarities. *)
Example C79_signatures_example :
  take 3 (at_sentence corpus_sigs 0) = take 3 (at_sentence corpus_sigs 3) /\ at_sentence corpus_sigs 0 <> at_sentence corpus_sigs 4 /\
  sim (at_sentence letter_sigs 0) (at_sentence letter_sigs 1) = f64_div (f64_of_N 73) (f64_of_N 99) /\
  length <$> corpus_sigs = replicate 5 126.
Proof. split; [vm_compute; reflexivity|]. split; [vm_compute; discriminate|]. vm_compute. auto. Qed.

Print Assumptions C79_example.
Print Assumptions C79_lsh_index.
Print Assumptions C79_batch_construction.
Print Assumptions C79_duplicate_ids.
Print Assumptions C79_query_one.
Print Assumptions C79_remove.
Print Assumptions C79_estimates.
Print Assumptions C79_string_index.
