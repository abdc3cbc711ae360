(** Property C82: the tests of the Python package (py-gaoya/tests/test_minhash.py), with the
    hashers the classes make.

    As in C79 the coefficients come from the generator of Rng.v and the token hashes are FNV; the
    theorems hold for every band hash, schedule, enumeration order of sets and unstable sort. The
    crate [shingles] and [str::to_lowercase] are arguments; where a test depends on them, the
    hypotheses say what is used: windows of one word are the words, and ASCII letters are
    lower-cased. *)
From stdpp Require Import base list gmap strings.
From Coq Require Import NArith ZArith String.
From Verif Require Import Base Float Container MinHashIndex SpecIndex MinHasher Text StringIndex PyTokenizer PyMinHash SpecPy SpecPyClass PyHash.
From Verif Require Import Rng RngDraws FastHash ExampleIndex PropsDefaults PyTestFacts PropsPy PropsPy2 SpecPyTest.
Local Open Scope nat_scope.
Local Open Scope string_scope.
Local Open Scope list_scope.

(** The tokens of an ASCII document in the tests. *)
Definition plain_words (doc : text) : option (list token) := Some (TStr <$> PyTokenizer.words doc).
Definition custom_words (doc : text) : option (list token) := Some (given_tokens (split_and_uppercase doc)).
Definition lower_words (doc : text) : option (list token) := Some ((fun w => TWords [w]) <$> PyTokenizer.words (ascii_lower doc)).
Definition single_words (doc : text) : option (list token) := Some ((fun w => TWords [w]) <$> PyTokenizer.words doc).

Definition make_table (hk : hasher_kind) (n : nat) (tk : text -> option (list token)) (docs : list string) : list (list token * list N) :=
  default [] (h ← std_hasher_new 9 hk n;
    mapM (fun d => t ← tk (chars d); s ← fast_signature fast_token hk h t; Some (t, s)) docs).

Definition table64 : list (list token * list N) :=
  Eval vm_compute in make_table MinHasher64V1 100 plain_words [" a b c d e"; "a b c d f"; "a b g h f"].
Definition docs6 : list string := ["a b c d e f"; "1 2 3 4 5 6 8"; " a b c d e g"; "a b h g f"; "1 2 3 4 5 6 9 10"].
Definition table6 (hk : hasher_kind) : list (list token * list N) :=
  match hk with
  | MinHasher32 => ltac:(let r := eval vm_compute in (make_table MinHasher32 150 plain_words docs6) in exact r)
  | MinHasher16 => ltac:(let r := eval vm_compute in (make_table MinHasher16 150 plain_words docs6) in exact r)
  | MinHasher8 => ltac:(let r := eval vm_compute in (make_table MinHasher8 150 plain_words docs6) in exact r)
  | MinHasher64V1 => []
  end.
Definition table_custom : list (list token * list N) :=
  Eval vm_compute in make_table MinHasher16 200 custom_words ["a b c d e f g"; "foo bar baz"].
Definition table_documents : list (list token * list N) :=
  Eval vm_compute in make_table MinHasher32 126 lower_words corpus.
Definition table_letters : list (list token * list N) :=
  Eval vm_compute in make_table MinHasher32 135 single_words letters_corpus.

Section Tests.
Context (powf : f64 -> f64 -> f64) (lower : text -> text)
        (shingles_str : list N -> nat -> option (list (list N)))
        (shingles_words : list (list N) -> nat -> option (list (list (list N)))).
Context (draws : N -> nat -> nat -> N) (bh : list N -> N) (order : gset Z -> list Z).
Notation drawn hk n := (std_hasher_new 9 hk n = Some (new_with_hasher draws n)).
Notation passes := (passes lower shingles_str shingles_words hash_token bh order).
Notation class_new := (class_new powf draws).

Theorem C82_64bit : drawn MinHasher64V1 100 -> is_order order ->
  exists m, class_new 64 half (Some 20) (Some 5) None (Named "word") (Some false) None "set" = Made m /\ passes m test_64bit.
Proof.
  intros Hh Ho. eexists. split; [reflexivity|].
  apply (script_passes MinHasher64V1 100 table64 20 5 half plain_words); [reflexivity|vm_compute; reflexivity|exact Hh| |exact Ho|vm_compute; reflexivity].
  intros doc _. reflexivity.
Qed.

Definition hash_sizes : list (Z * hasher_kind) := [(32%Z, MinHasher32); (16%Z, MinHasher16); (8%Z, MinHasher8)].
Theorem C82_min_hash (bits : Z) (hk : hasher_kind) (id_container : string) :
  (bits, hk) ∈ hash_sizes -> drawn hk 150 -> is_order order ->
  (id_container ∈ ["set"; "vec"; "smallvec"] -> exists m,
     class_new bits half (Some 30) (Some 5) None (Named "word") (Some false) None id_container = Made m /\ passes m do_test_minhash) /\
  class_new bits half (Some 30) (Some 5) None (Named "word") (Some false) None "array" = ValueError.
Proof.
  intros Hb Hh Ho.
  assert (Hc : table_ok hk 150 (table6 hk) = true /\ check (table6 hk) 30 5 half plain_words ∅ do_test_minhash = true).
  { unfold hash_sizes in Hb. repeat (apply elem_of_cons in Hb as [[= -> ->]|Hb]); [vm_compute; split; reflexivity..|by apply elem_of_nil in Hb]. }
  destruct Hc as [Ht Hc]. split.
  - intros Hi.
    assert (Hm : exists ck, class_new bits half (Some 30) (Some 5) None (Named "word") (Some false) None id_container =
      Made (ClassIndex ck hk (py_make draws ck half 30 5 (Some "word") (Some false) None) (Named "word"))).
    { clear Ht Hc Hh. unfold hash_sizes in Hb.
      repeat (apply elem_of_cons in Hi as [->|Hi]); [eexists|eexists|eexists|by apply elem_of_nil in Hi];
        (repeat (apply elem_of_cons in Hb as [[= -> ->]|Hb]); [reflexivity..|by apply elem_of_nil in Hb]). }
    destruct Hm as [ck Hm]. eexists. split; [exact Hm|].
    apply (script_passes hk 150 (table6 hk) 30 5 half plain_words lower shingles_str shingles_words draws bh ck order (Named "word")); [reflexivity|exact Ht|exact Hh| |exact Ho|exact Hc].
    intros doc _. reflexivity.
  - clear Ht Hc Hh. unfold hash_sizes in Hb. repeat (apply elem_of_cons in Hb as [[= -> ->]|Hb]); [reflexivity..|by apply elem_of_nil in Hb].
Qed.

Theorem C82_custom_analyzer : drawn MinHasher16 200 -> is_order order ->
  exists m, class_new 16 half (Some 40) (Some 5) None (Callable split_and_uppercase) (Some false) None "set" = Made m /\
    passes m test_custom_analyzer.
Proof.
  intros Hh Ho. eexists. split; [reflexivity|].
  apply (script_passes MinHasher16 200 table_custom 40 5 half custom_words); [reflexivity|vm_compute; reflexivity|exact Hh| |exact Ho|vm_compute; reflexivity].
  intros doc _. reflexivity.
Qed.

Theorem C82_documents : drawn MinHasher32 126 -> is_order order ->
  (forall ws, shingles_words ws 1 = Some ((fun w => [w]) <$> ws)) ->
  (forall doc, ascii doc = true -> lower doc = ascii_lower doc) ->
  exists m, class_new 32 half (Some 42) (Some 3) None (Named "word") (Some true) (Some (1, 1)) "set" = Made m /\
    passes m test_documents.
Proof.
  intros Hh Ho Hsh Hlow. eexists. split; [reflexivity|].
  apply (script_passes MinHasher32 126 table_documents 42 3 half lower_words); [reflexivity|vm_compute; reflexivity|exact Hh| |exact Ho|vm_compute; reflexivity].
  intros doc Hd. change (map TWords <$> shingles_words (PyTokenizer.words (lower doc)) 1 = lower_words doc).
  rewrite (Hlow doc Hd), Hsh. cbn [fmap option_fmap option_map]. unfold lower_words. f_equal. apply map_map.
Qed.

Definition result0 : list (Z * f64) := (fun p : Z * N => (p.1, f64_div (f64_of_N p.2) (f64_of_N 135))) <$> [(0%Z, 135%N); (1%Z, 126%N); (2%Z, 119%N); (3%Z, 113%N)].
Definition result7 : list (Z * f64) := (fun p : Z * N => (p.1, f64_div (f64_of_N p.2) (f64_of_N 135))) <$> [(7%Z, 135%N); (5%Z, 125%N); (6%Z, 111%N); (4%Z, 99%N)].
Definition letters_check : bool :=
  match stored table_letters single_words ∅ (zip (Z.of_nat <$> seq 0 8) (chars <$> letters_corpus)) with
  | Some c =>
      (size c =? 8)%nat && bool_decide (doc_sig table_letters single_words (chars (letters_corpus !!! 0)) = Some (nth 0 table_letters ([], [])).2) &&
      bool_decide (doc_sig table_letters single_words (chars (letters_corpus !!! 7)) = Some (nth 7 table_letters ([], [])).2) &&
      ranked 45 3 half c (nth 0 table_letters ([], [])).2 result0 && ranked 45 3 half c (nth 7 table_letters ([], [])).2 result7
  | None => false
  end.
Theorem C82_return_similarity (sched1 sched2 : list nat) (sort : list (Z * f64) -> list (Z * f64)) :
  drawn MinHasher32 135 -> is_order order -> is_sort f64_ge sort ->
  (forall ws, shingles_words ws 1 = Some ((fun w => [w]) <$> ws)) ->
  exists m, class_new 32 half (Some 45) (Some 3) None (Named "word") (Some false) (Some (1, 1)) "set" = Made m /\
    let r := class_step lower shingles_str shingles_words hash_token bh m
      (CParBulkInsertDocs sched1 sched2 (Z.of_nat <$> seq 0 8) (chars <$> letters_corpus)) in
    r.2 = false /\ class_size r.1 = 8 /\
    let ask s := class_query_return_similarity lower shingles_str shingles_words hash_token bh order sort r.1 (chars s) in
    ask (letters_corpus !!! 0) = Some result0 /\ check_result (letters_corpus !!! 0) result0 /\
    ask (letters_corpus !!! 7) = Some result7 /\ check_result (letters_corpus !!! 7) result7.
Proof.
  intros Hh Ho Hsort Hsh.
  assert (Htk : forall doc, ascii doc = true ->
    class_tokens (fun s => doc_tokens lower shingles_str shingles_words (tokenizer_new s (Some (1, 1))) (default false (Some false))) (Named "word") doc
    = single_words doc).
  { intros doc _. change (map TWords <$> shingles_words (PyTokenizer.words doc) 1 = single_words doc).
    rewrite Hsh. cbn [fmap option_fmap option_map]. unfold single_words. f_equal. apply map_map. }
  assert (Ht : table_ok MinHasher32 135 table_letters = true) by (vm_compute; reflexivity).
  set (ops := zip_with CInsertDocument (Z.of_nat <$> seq 0 8) (chars <$> letters_corpus)).
  assert (Eops : ops = [] ++ ((fun p => CInsertDocument p.1 p.2) <$> zip (Z.of_nat <$> seq 0 8) (chars <$> letters_corpus))) by reflexivity.
  assert (Hst : exists c, stored table_letters single_words ∅ (zip (Z.of_nat <$> seq 0 8) (chars <$> letters_corpus)) = Some c /\
    size c = 8 /\ doc_sig table_letters single_words (chars (letters_corpus !!! 0)) = Some (nth 0 table_letters ([], [])).2 /\
    doc_sig table_letters single_words (chars (letters_corpus !!! 7)) = Some (nth 7 table_letters ([], [])).2 /\
    ranked 45 3 half c (nth 0 table_letters ([], [])).2 result0 = true /\ ranked 45 3 half c (nth 7 table_letters ([], [])).2 result7 = true).
  { assert (Hc : letters_check = true) by (vm_compute; reflexivity). revert Hc. unfold letters_check.
    destruct (stored table_letters single_words ∅ (zip (Z.of_nat <$> seq 0 8) (chars <$> letters_corpus))) as [c|]; [|intros [=]].
    rewrite !andb_true_iff. intros [[[[H1%Nat.eqb_eq H2%bool_decide_eq_true_1] H3%bool_decide_eq_true_1] H4] H5].
    exists c. split; [reflexivity|]. split; [exact H1|]. split; [exact H2|]. split; [exact H3|]. split; [exact H4|exact H5]. }
  destruct Hst as (c & Hst & Hsize & Hq0 & Hq7 & Hr0 & Hr7).
  destruct (stored_ok MinHasher32 135 table_letters 45 3 single_words lower shingles_str shingles_words draws (Named "word") (Some false) (Some (1, 1))
    eq_refl Ht Hh Htk (zip (Z.of_nat <$> seq 0 8) (chars <$> letters_corpus)) [] c) as [Hf Hc]; [exact I| |].
  { unfold ccontent. cbn [fold_left]. rewrite fmap_empty. exact Hst. }
  cbv zeta in Hf, Hc. rewrite <- Eops in Hf, Hc.
  assert (Hm : class_new 32 half (Some 45) (Some 3) None (Named "word") (Some false) (Some (1, 1)) "set" =
    Made (ClassIndex KHashSet MinHasher32 (py_make draws KHashSet half 45 3 (Some "word") (Some false) (Some (1, 1))) (Named "word"))) by reflexivity.
  eexists. split; [exact Hm|]. cbv zeta.
  set (m := ClassIndex KHashSet MinHasher32 (py_make draws KHashSet half 45 3 (Some "word") (Some false) (Some (1, 1))) (Named "word")) in *.
  assert (Hstep : class_step lower shingles_str shingles_words hash_token bh m
      (CParBulkInsertDocs sched1 sched2 (Z.of_nat <$> seq 0 8) (chars <$> letters_corpus)) =
    (class_run lower shingles_str shingles_words hash_token bh m ops, false)).
  { refine (C52_class lower shingles_str shingles_words powf hash_token draws bh 32 half (Some 45) (Some 3) None (Named "word") (Some false) (Some (1, 1))
      "set" m [] sched1 sched2 (Z.of_nat <$> seq 0 8) (chars <$> letters_corpus) Hm _).
    intros doc name Hd [= <-].
    assert (Ha : ascii doc = true).
       { assert (Hall : forallb ascii (chars <$> letters_corpus) = true) by (vm_compute; reflexivity).
         rewrite forallb_forall in Hall. apply Hall. by apply elem_of_list_In. }
    specialize (Htk doc Ha). cbn [class_tokens] in Htk. rewrite Htk. by eexists. }
  rewrite Hstep. cbn [fst snd]. split; [reflexivity|]. split; [|split; [|split; [|split]]].
  - transitivity (size (ccontent (class_tokens (fun s => doc_tokens lower shingles_str shingles_words (tokenizer_new s (Some (1, 1))) false) (Named "word")) ops)).
    { exact (C57_class_size lower shingles_str shingles_words hash_token draws bh KHashSet MinHasher32 45 3 half (Named "word") (Some false) (Some (1, 1)) ops). }
    rewrite <- Hsize, <- Hc. symmetry. apply map_size_fmap.
  - apply (query_ranked MinHasher32 135 table_letters 45 3 half single_words lower shingles_str shingles_words draws bh KHashSet order (Named "word")
      (Some false) (Some (1, 1)) eq_refl Ht Hh Htk Ho sort ops _ _ _ Hsort Hf Hq0). rewrite Hc. exact Hr0.
  - vm_compute. repeat split.
  - apply (query_ranked MinHasher32 135 table_letters 45 3 half single_words lower shingles_str shingles_words draws bh KHashSet order (Named "word")
      (Some false) (Some (1, 1)) eq_refl Ht Hh Htk Ho sort ops _ _ _ Hsort Hf Hq7). rewrite Hc. exact Hr7.
  - vm_compute. repeat split.
Qed.
End Tests.

(** The hypotheses are met. *)
Example C82_draws_example : Forall (fun p : hasher_kind * nat => exists draws, std_hasher_new 9 p.1 p.2 = Some (new_with_hasher draws p.2))
  [(MinHasher64V1, 100); (MinHasher32, 150); (MinHasher16, 150); (MinHasher8, 150); (MinHasher16, 200); (MinHasher32, 126); (MinHasher32, 135)].
Proof. repeat (apply Forall_cons_2; [apply draws_exist; vm_compute; reflexivity|]). apply Forall_nil_2. Qed.
Example C82_hypotheses_example : is_order (Id := Z) elements /\ ascii (chars "This is the first document.") = true /\
  ascii_lower (chars "This") = chars "this" /\ (check_jaccard (letters_corpus !!! 7) (4%Z, f64_div (f64_of_N 3) (f64_of_N 4)), check_jaccard (letters_corpus !!! 7) (4%Z, half)) = (true, false).
Proof. split; [by intros s|]. vm_compute. repeat split. Qed.

Print Assumptions C82_64bit.
Print Assumptions C82_min_hash.
Print Assumptions C82_custom_analyzer.
Print Assumptions C82_documents.
Print Assumptions C82_return_similarity.
