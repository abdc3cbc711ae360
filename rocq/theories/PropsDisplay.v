(** Property C87: the texts the indexes print ([Display], [__str__], [__repr__]). *)
From stdpp Require Import base list gmap strings.
From Coq Require Import NArith ZArith Ascii.
From Verif Require Import Base Par Float Container MinHashIndex SpecIndex MinHasher Text StringIndex PyTokenizer PyMinHash
  SpecPy Display SpecDisplay.
From Verif Require Import MinHashIndexFacts MinHashIndexThms PyFacts DisplayFacts ExampleIndex PropsPy.
Local Open Scope string_scope.

(** After any history the text gives the parameters of the constructor, their product and the
    number of stored ids. *)
Theorem C87_text {T} `{!EqDecision T} {Id} `{Countable Id} (tn : string) (show : f64 -> string)
    (k : container_kind) (bh : list T -> N) (nb bw : nat) (th : f64) (ops : list (op Id T)) :
  display tn show (after k bh nb bw th ops) =
  String.concat "" ["MinHashIndex<"; tn; "> { threshold = "; show th;
    ", num_hashes = "; show_usize (nb * bw); ", bands = "; show_usize nb;
    ", rows_per_band = "; show_usize bw;
    ", size = "; show_usize (size (spec_map (nb * bw) ops)); " }"].
Proof.
  pose proof (after_inv k bh nb bw th ops) as HI. unfold display.
  rewrite (inv_sigs _ _ _ _ _ _ _ HI), (inv_th _ _ _ _ _ _ _ HI), (inv_b _ _ _ _ _ _ _ HI), (inv_r _ _ _ _ _ _ _ HI).
  reflexivity.
Qed.
Print Assumptions C87_text.

Example C87_text_example :
  display "u32" (fun _ => "0.5") (after KVec bhx 2 2 half clean_ops) =
  "MinHashIndex<u32> { threshold = 0.5, num_hashes = 4, bands = 2, rows_per_band = 2, size = 4 }".
Proof. vm_compute. reflexivity. Qed.

(** Two indexes print the same text exactly if these agree. *)
Theorem C87_same_text {T1 T2} `{!EqDecision T1} `{!EqDecision T2} {Id1 Id2} `{Countable Id1} `{Countable Id2}
    (tn1 tn2 : string) (show : f64 -> string) (k1 k2 : container_kind)
    (bh1 : list T1 -> N) (bh2 : list T2 -> N) (nb1 nb2 bw1 bw2 : nat) (th1 th2 : f64)
    (ops1 : list (op Id1 T1)) (ops2 : list (op Id2 T2)) :
  displays show -> lacks ">"%char tn1 = true -> lacks ">"%char tn2 = true ->
  display tn1 show (after k1 bh1 nb1 bw1 th1 ops1) = display tn2 show (after k2 bh2 nb2 bw2 th2 ops2) <->
  tn1 = tn2 /\ th1 = th2 /\ nb1 = nb2 /\ bw1 = bw2 /\
  size (spec_map (nb1 * bw1) ops1) = size (spec_map (nb2 * bw2) ops2).
Proof.
  intros Hs H1 H2. split.
  - intros E. apply (f_equal (fun s => s +:+ "")) in E.
    destruct (display_inj show Hs _ _ _ _ _ _ H1 H2 E) as (E1 & E2 & E3 & E4 & E5 & _).
    pose proof (after_inv k1 bh1 nb1 bw1 th1 ops1) as HI1. pose proof (after_inv k2 bh2 nb2 bw2 th2 ops2) as HI2.
    rewrite (inv_sigs _ _ _ _ _ _ _ HI1), (inv_sigs _ _ _ _ _ _ _ HI2) in E5.
    rewrite (inv_th _ _ _ _ _ _ _ HI1), (inv_th _ _ _ _ _ _ _ HI2) in E2.
    rewrite (inv_b _ _ _ _ _ _ _ HI1), (inv_b _ _ _ _ _ _ _ HI2) in E3.
    rewrite (inv_r _ _ _ _ _ _ _ HI1), (inv_r _ _ _ _ _ _ _ HI2) in E4. done.
  - intros (-> & -> & -> & -> & E). by rewrite !C87_text, E.
Qed.
Print Assumptions C87_same_text.

Example C87_same_text_example :
  displays ex_show /\ lacks ">"%char "u32" = true /\
  display "u32" ex_show (after KVec bhx 2 2 ExampleIndex.half clean_ops) =
  display "u32" ex_show (after KHashSet bhx 2 2 ExampleIndex.half [Insert 1 [1;1;1;1]; Insert 2 [2;2;2;2];
    Insert 3 [3;3;3;3]; Insert 4 [4;4;4;4]]%N).
Proof. split; [exact ex_show_ok|]. split; vm_compute; reflexivity. Qed.

Section Python.
Context (lower : text -> text)
        (shingles_str : list N -> nat -> option (list (list N)))
        (shingles_words : list (list N) -> nat -> option (list (list (list N)))).
Context (hash : token -> N) (draws : N -> nat -> nat -> N) (bh : list N -> N).
Context (show : f64 -> string) (Hshow : displays show).
Notation object ck hk nb bw th an lc range ops :=
  (py_run lower shingles_str shingles_words hash bh ck hk (py_make draws ck th nb bw an lc range) ops).
Notation tokens an lc range :=
  (doc_tokens lower shingles_str shingles_words (tokenizer_new (default "word" an) range) (default false lc)).

(** The Python objects add the tokenizer; after any history the size is that of the content. *)
Theorem C87_python ck1 ck2 hk1 hk2 tn1 tn2 nb1 nb2 bw1 bw2 th1 th2 an1 an2 lc1 lc2 range1 range2 ops1 ops2 :
  lacks ">"%char tn1 = true -> lacks ">"%char tn2 = true ->
  py_str tn1 show (object ck1 hk1 nb1 bw1 th1 an1 lc1 range1 ops1) =
  py_str tn2 show (object ck2 hk2 nb2 bw2 th2 an2 lc2 range2 ops2) <->
  tn1 = tn2 /\ th1 = th2 /\ nb1 = nb2 /\ bw1 = bw2 /\
  size (content (tokens an1 lc1 range1) ops1) = size (content (tokens an2 lc2 range2) ops2) /\
  tokenizer_new (default "word" an1) range1 = tokenizer_new (default "word" an2) range2.
Proof.
  intros H1 H2. unfold py_str. rewrite !run_new. cbn [at_ops py_inner py_tokenizer].
  split.
  - intros E. destruct (display_inj show Hshow _ _ _ _ _ _ H1 H2 E) as (E1 & E2 & E3 & E4 & E5 & E6).
    apply (inj (String.append _)) in E6. apply debug_tokenizer_inj in E6.
    pose proof (after_inv ck1 bh nb1 bw1 th1 (concat (PyFacts.trans lower shingles_str shingles_words hash draws hk1 nb1 bw1
      (tokenizer_new (default "word" an1) range1) (default false lc1) <$> ops1))) as HI1.
    pose proof (after_inv ck2 bh nb2 bw2 th2 (concat (PyFacts.trans lower shingles_str shingles_words hash draws hk2 nb2 bw2
      (tokenizer_new (default "word" an2) range2) (default false lc2) <$> ops2))) as HI2.
    rewrite (inv_sigs _ _ _ _ _ _ _ HI1), (inv_sigs _ _ _ _ _ _ _ HI2), !spec_run, !map_size_fmap in E5.
    rewrite (inv_th _ _ _ _ _ _ _ HI1), (inv_th _ _ _ _ _ _ _ HI2) in E2.
    rewrite (inv_b _ _ _ _ _ _ _ HI1), (inv_b _ _ _ _ _ _ _ HI2) in E3.
    rewrite (inv_r _ _ _ _ _ _ _ HI1), (inv_r _ _ _ _ _ _ _ HI2) in E4. done.
  - intros (-> & -> & -> & -> & E & E'). rewrite !C87_text, !spec_run, !map_size_fmap, E, E'. done.
Qed.
End Python.
Print Assumptions C87_python.

(** The text does not show everything that matters: whether documents are put in lower case
    is missing. *)
Theorem C87_python_refuted :
  exists (lc1 lc2 : option bool) (ops : list py_op) (q : text),
    let object lc := py_run ex_lower ex_shingles ex_shingles ex_token ex_bh KHashSet MinHasher32
      (py_make ex_draws KHashSet PropsPy.half 3 2 None lc None) ops in
    py_str "u32" ex_show (object lc1) = py_str "u32" ex_show (object lc2) /\
    py_query ex_lower ex_shingles ex_shingles ex_token ex_bh KHashSet MinHasher32 elements (object lc1) q ≠
    py_query ex_lower ex_shingles ex_shingles ex_token ex_bh KHashSet MinHasher32 elements (object lc2) q.
Proof.
  exists (Some true), None, [InsertDocument 1 [65]%N], [97]%N. cbv zeta. split.
  - vm_compute. reflexivity.
  - intros E. vm_compute in E. discriminate.
Qed.
Print Assumptions C87_python_refuted.

Example C87_python_example :
  py_str "u64" (fun _ => "0.5") (py_make ex_draws KVec PropsPy.half 3 2 (Some "char") None (Some (2, 2))%nat)
  = "MinHashIndex<u64> { threshold = 0.5, num_hashes = 6, bands = 3, rows_per_band = 2, size = 0 } CharShingle((2, None))".
Proof. vm_compute. reflexivity. Qed.
