(** Property theorems C90: the deduplication notebook. *)
From stdpp Require Import base list gmap strings.
From Coq Require Import NArith ZArith.
From Verif Require Import Base Float Container SpecIndex JaccardFacts MinHasher Text SpecText StringIndex
  PyTokenizer PyMinHash SpecPy SpecPyClass PyFacts PropsPy PropsPy2 Notebook SpecNotebook NotebookFacts.
Local Open Scope nat_scope.

Section Dedup.
Context (lower : text -> text)
        (shingles_str : list N -> nat -> option (list (list N)))
        (shingles_words : list (list N) -> nat -> option (list (list (list N)))).
Context (hash : token -> N) (draws : N -> nat -> nat -> N) (bh : list N -> N).
Context (ck : container_kind) (hk : hasher_kind).
Context (order : gset Z -> list Z).
Context (nb bw : nat) (th : f64).
Context (an : analyzer) (lc : option bool) (range : option (nat * nat)).
Notation name := (match an with Callable _ => "word"%string | Named s => s end).
Notation new := (ClassIndex ck hk (py_make draws ck th nb bw (Some name) lc range) an).
Notation native s := (doc_tokens lower shingles_str shingles_words (tokenizer_new s range) (default false lc)).
Notation toks := (class_tokens (fun s => native s) an).
Notation sg := (sig_tokens hk hash draws (nb * bw)).
Notation dedup := (deduplicate lower shingles_str shingles_words hash bh order).

(** What the table has to satisfy, for any object C53_class_constructor allows. *)
Definition table (ids : list Z) (docs : list text) (ts : list (list token)) : Prop :=
  NoDup ids /\ length ids = length docs /\ Forall2 (fun d t => toks d = Some t) docs ts.
Definition setting : Prop :=
  is_order order /\ 0 < nb /\ 0 < bw /\ (N.of_nat (nb * bw) <= 2 ^ 53)%N /\ f64_ge f64_one th = true.

(** No [remove] raises, and each row lists exactly the other rows alike with it. *)
Theorem C90_rows (ids : list Z) (docs : list text) (ts : list (list token)) (s1 s2 s3 s4 : list nat) :
  setting -> table ids docs ts ->
  exists rows, dedup s1 s2 s3 s4 new ids docs = Some rows /\ length rows = length ids /\
    forall i row, rows !! i = Some row -> row_of nb bw bh th ids (sg <$> ts) i row.
Proof.
  intros (Ho & Hnb & Hbw & Hsz & Hth) (Hn & Hl & Ht). by apply deduplicate_rows.
Qed.

(** Being listed is mutual. *)
Theorem C90_mutual (ids : list Z) (docs : list text) (ts : list (list token)) (s1 s2 s3 s4 : list nat)
    (rows : list (list Z)) (i k : nat) (a b : Z) (ri rk : list Z) :
  setting -> table ids docs ts -> dedup s1 s2 s3 s4 new ids docs = Some rows ->
  ids !! i = Some a -> ids !! k = Some b -> rows !! i = Some ri -> rows !! k = Some rk ->
  b ∈ ri <-> a ∈ rk.
Proof.
  intros Hs Ht Hd Ha Hb Hi Hk. destruct (C90_rows ids docs ts s1 s2 s3 s4 Hs Ht) as (rows' & Hd' & _ & Hrow).
  rewrite Hd in Hd'. injection Hd' as <-. destruct Ht as (Hn & _ & _).
  pose proof (Hrow i ri Hi) as [_ Ri]. pose proof (Hrow k rk Hk) as [_ Rk]. rewrite Ri, Rk. clear Ri Rk.
  enough (H : forall i k a b, ids !! i = Some a -> ids !! k = Some b ->
    (exists k0 s s', k0 <> i /\ ids !! k0 = Some b /\ (sg <$> ts) !! i = Some s /\ (sg <$> ts) !! k0 = Some s' /\
      alike nb bw bh th s s') ->
    exists k0 s s', k0 <> k /\ ids !! k0 = Some a /\ (sg <$> ts) !! k = Some s /\ (sg <$> ts) !! k0 = Some s' /\
      alike nb bw bh th s s') by (split; [exact (H i k a b Ha Hb)|exact (H k i b a Hb Ha)]).
  clear -Hn. intros i k a b Ha Hb (k0 & s & s' & Hne & Hk0 & Hs & Hs' & Hal).
  pose proof (NoDup_lookup ids k k0 _ Hn Hb Hk0) as <-. exists i, s', s.
  split; [by intros ->|]. split; [done|]. split; [done|]. split; [done|].
  rewrite list_lookup_fmap in Hs, Hs'. destruct (ts !! i) as [t|]; [|done]. destruct (ts !! k) as [t'|]; [|done].
  cbn in Hs, Hs'. injection Hs as <-. injection Hs' as <-. by apply alike_sym.
Qed.

(** Copies are listed for each other. *)
Theorem C90_copies (ids : list Z) (docs : list text) (ts : list (list token)) (s1 s2 s3 s4 : list nat)
    (rows : list (list Z)) (i k : nat) (b : Z) (doc : text) (ri : list Z) :
  setting -> table ids docs ts -> dedup s1 s2 s3 s4 new ids docs = Some rows ->
  i <> k -> docs !! i = Some doc -> docs !! k = Some doc -> ids !! k = Some b -> rows !! i = Some ri ->
  b ∈ ri.
Proof.
  intros Hs Ht Hd Hne Hi Hk Hb Hri. destruct (C90_rows ids docs ts s1 s2 s3 s4 Hs Ht) as (rows' & Hd' & _ & Hrow).
  rewrite Hd in Hd'. injection Hd' as <-. destruct Ht as (_ & _ & Ht). destruct Hs as (_ & Hnb & Hbw & Hsz & Hth).
  apply (proj2 (Hrow i ri Hri) b).
  destruct (Forall2_lookup_l _ _ _ _ _ Ht Hi) as (t & Hti & Et).
  destruct (Forall2_lookup_l _ _ _ _ _ Ht Hk) as (t' & Htk & Et'). rewrite Et in Et'. injection Et' as <-.
  exists k, (sg t), (sg t). rewrite !list_lookup_fmap, Hti, Htk. split_and!; try done. by apply alike_refl.
Qed.
End Dedup.

(** The call of the notebook: [MinHasher32], 50 bands of 4, threshold 0.5, windows of three and
    four characters; every text is accepted. *)
Theorem C90_notebook (lower : text -> text) (shingles_str : list N -> nat -> option (list (list N)))
    (shingles_words : list (list N) -> nat -> option (list (list (list N))))
    (powf : f64 -> f64 -> f64) (hash : token -> N) (draws : N -> nat -> nat -> N) (bh : list N -> N)
    (order : gset Z -> list Z) (ids : list Z) (docs : list text) (s1 s2 s3 s4 : list nat) :
  is_order order -> NoDup ids -> length ids = length docs ->
  exists m rows, notebook_index powf draws = Made m /\
    deduplicate lower shingles_str shingles_words hash bh order s1 s2 s3 s4 m ids docs = Some rows /\
    length rows = length ids /\
    forall i row, rows !! i = Some row ->
      row_of 50 4 bh notebook_threshold ids
        ((fun d => sig_tokens MinHasher32 hash draws 200 (as_str <$> shingle_windows d 3 4)) <$> docs) i row.
Proof.
  intros Ho Hn Hl.
  exists (ClassIndex KHashSet MinHasher32 (py_make draws KHashSet notebook_threshold 50 4 (Some "char"%string)
    (Some false) (Some (3, 4))) (Named "char")).
  destruct (C90_rows lower shingles_str shingles_words hash draws bh KHashSet MinHasher32 order 50 4
    notebook_threshold (Named "char") (Some false) (Some (3, 4)) ids docs
    ((fun d => as_str <$> shingle_windows d 3 4) <$> docs) s1 s2 s3 s4) as (rows & Hd & HL & Hr).
  - split_and!; [done|lia|lia| |].
    + vm_compute. discriminate.
    + vm_compute. reflexivity.
  - split; [done|]. split; [done|]. apply Forall2_fmap_r, Forall_Forall2_diag, Forall_forall. intros d _.
    cbn [class_tokens default].
    apply (C59_tokens lower shingles_str shingles_words "char" (Some (3, 4)) false d). { split; [lia|]. intros _. lia. }
    apply (st_chars 3 4 d). lia.
  - exists rows. split; [reflexivity|]. split; [exact Hd|]. split; [exact HL|]. intros i row Hi.
    specialize (Hr i row Hi). rewrite <- list_fmap_compose in Hr. exact Hr.
Qed.

(** Python's [list.remove]. *)
Theorem C90_remove (x : Z) (l : list Z) :
  (x ∉ l -> list_remove x l = None) /\
  (x ∈ l -> exists l1 l2, l = l1 ++ x :: l2 /\ x ∉ l1 /\ list_remove x l = Some (l1 ++ l2)).
Proof. exact (list_remove_spec x l). Qed.

(** ** The metrics of a row *)
Definition small (l : list Z) : Prop := (N.of_nat (length l) <= 2 ^ 53)%N.

Lemma set_small (l : list Z) : small l -> (N.of_nat (size (list_to_set l : gset Z)) <= 2 ^ 53)%N.
Proof.
  unfold small. intros H. enough (size (list_to_set l : gset Z) <= length l) by lia. clear.
  induction l as [|x l IH]; [by rewrite list_to_set_nil, size_empty|].
  rewrite list_to_set_cons. cbn [length]. rewrite size_union_alt, size_singleton.
  pose proof (subseteq_size (list_to_set l ∖ {[x]}) (list_to_set l : gset Z) ltac:(set_solver)). lia.
Qed.

Lemma set_empty (l : list Z) : size (list_to_set l : gset Z) = 0 <-> l = [].
Proof.
  rewrite size_zero_iff. split; [|by intros ->]. destruct l as [|x l]; [done|]. intros H. exfalso.
  assert (x ∈ (list_to_set (x :: l) : gset Z)) as Hx by set_solver. rewrite H in Hx. set_solver.
Qed.

Theorem C90_recall (labelled predicted : list Z) : small labelled ->
  f64_ge (recall labelled predicted) (f64_of_N 0) = true /\ f64_ge f64_one (recall labelled predicted) = true /\
  (recall labelled predicted = f64_one <-> forall x, x ∈ labelled -> x ∈ predicted).
Proof.
  intros Hs. unfold recall. destruct (Nat.eqb_spec (size (list_to_set labelled : gset Z)) 0) as [E|E].
  - apply set_empty in E as ->. split; [vm_compute; reflexivity|]. split; [vm_compute; reflexivity|].
    split; [|done]. intros _ x Hx. by apply elem_of_nil in Hx.
  - destruct (size_ratio_spec (list_to_set predicted ∩ list_to_set labelled) (list_to_set labelled)) as (H1 & H2 & H3).
    + set_solver.
    + intros H. apply E. by rewrite H, size_empty.
    + by apply set_small.
    + split; [done|]. split; [done|]. rewrite H3. split.
      * intros H x Hx. assert (x ∈ (list_to_set labelled : gset Z)) as Hx' by set_solver. rewrite <- H in Hx'. set_solver.
      * intros H. set_solver.
Qed.

Theorem C90_precision (labelled predicted : list Z) : small predicted ->
  f64_ge (precision labelled predicted) (f64_of_N 0) = true /\ f64_ge f64_one (precision labelled predicted) = true /\
  (predicted = [] -> precision labelled predicted = f64_of_N 0) /\
  (precision labelled predicted = f64_one <-> predicted <> [] /\ forall x, x ∈ predicted -> x ∈ labelled).
Proof.
  intros Hs. unfold precision. destruct (Nat.eqb_spec (size (list_to_set predicted : gset Z)) 0) as [E|E].
  - apply set_empty in E as ->. split; [vm_compute; reflexivity|]. split; [vm_compute; reflexivity|].
    split; [done|]. split; [|by intros [? _]]. intros H. vm_compute in H. discriminate H.
  - destruct (size_ratio_spec (list_to_set predicted ∩ list_to_set labelled) (list_to_set predicted)) as (H1 & H2 & H3).
    + set_solver.
    + intros H. apply E. by rewrite H, size_empty.
    + by apply set_small.
    + split; [done|]. split; [done|]. split; [intros ->; by contradict E|]. rewrite H3. split.
      * intros H. split; [intros ->; by contradict E|]. intros x Hx.
        assert (x ∈ (list_to_set predicted : gset Z)) as Hx' by set_solver. rewrite <- H in Hx'. set_solver.
      * intros [_ H]. set_solver.
Qed.

(** A correct row has recall 1, and precision 1 exactly if it has duplicates. *)
Theorem C90_correct (labelled predicted : list Z) : small labelled -> small predicted ->
  (correct labelled predicted = true <-> forall x, x ∈ labelled <-> x ∈ predicted) /\
  (correct labelled predicted = true ->
   recall labelled predicted = f64_one /\
  precision labelled predicted = if decide (labelled = []) then f64_of_N 0 else f64_one).
Proof.
  intros Hl Hp.
  assert (Hc : correct labelled predicted = true <-> forall x, x ∈ labelled <-> x ∈ predicted).
  { unfold correct. rewrite bool_decide_eq_true, set_eq. split; intros H x; specialize (H x); set_solver. }
  split; [done|]. intros H. pose proof (proj1 Hc H) as H2. clear H. rename H2 into H. split.
  - apply C90_recall; [done|]. intros x. apply H.
  - destruct (C90_precision labelled predicted Hp) as (_ & _ & H0 & H1).
    assert (He : labelled = [] <-> predicted = []).
    { split; intros ->.
      - destruct predicted as [|x l]; [done|]. exfalso. apply (not_elem_of_nil x), H. by left.
      - destruct labelled as [|x l]; [done|]. exfalso. apply (not_elem_of_nil x), H. by left. }
    destruct (decide (labelled = [])) as [E|E]; [apply H0; by apply He|].
    apply H1. split; [by rewrite <- He|]. intros x. apply H.
Qed.

(** So a table without duplicates, predicted perfectly, has precision 0 in every row. *)
Theorem C90_perfect_precision_refuted : exists labelled predicted : list Z,
  correct labelled predicted = true /\ recall labelled predicted = f64_one /\
  precision labelled predicted = f64_of_N 0 /\ precision labelled predicted <> f64_one.
Proof.
  exists [], []. split; [vm_compute; reflexivity|]. split; [vm_compute; reflexivity|].
  split; [vm_compute; reflexivity|]. vm_compute. discriminate.
Qed.

(** If two rows carry the same id, the cell with [remove] can raise ValueError: the later text
    replaces the earlier one, which then does not find its id. *)
Definition ex_table_index : class_index :=
  ClassIndex KHashSet MinHasher32 (py_make ex_draws KHashSet half 4 2 (Some "char"%string) (Some false) (Some (3, 4)))
    (Named "char").
Notation ex_dedup := (deduplicate ex_lower ex_shingles ex_shingles ex_token ex_bh elements [] [] [] [] ex_table_index).

Theorem C90_duplicate_ids_refuted : exists ids docs,
  length ids = length docs /\
  ex_dedup ids docs = None /\
  exists rows, class_par_bulk_query ex_lower ex_shingles ex_shingles ex_token ex_bh elements [] []
    (class_step ex_lower ex_shingles ex_shingles ex_token ex_bh ex_table_index (CParBulkInsertDocs [] [] ids docs)).1
    docs = Some rows /\ remove_self ids rows = None.
Proof.
  exists [1; 1]%Z, [doc_a; doc_c]. split; [reflexivity|]. split; [vm_compute; reflexivity|].
  exists [[]; [1]%Z]. split; vm_compute; reflexivity.
Qed.

(** ** Examples *)
Example C90_example :
  setting elements 4 2 half /\
  (exists ts, table ex_lower ex_shingles ex_shingles (Named "char") (Some false) (Some (3, 4))
     [5; 6; 7; 8]%Z [doc_a; doc_b; doc_c; doc_c] ts) /\
  ex_dedup [5; 6; 7; 8]%Z [doc_a; doc_b; doc_c; doc_c] = Some [[6]; [5]; [8]; [7]]%Z /\
  recall [6; 9]%Z [6]%Z = half /\ precision [6]%Z [6; 7]%Z = half /\ correct [6; 7]%Z [7; 6; 7]%Z = true /\
  list_remove 3 [1; 3; 2; 3]%Z = Some [1; 2; 3]%Z.
Proof.
  split. { split_and!; [by intros s|lia|lia|vm_compute; discriminate|vm_compute; reflexivity]. }
  split.
  { eexists [_; _; _; _]. split; [apply (bool_decide_unpack _); vm_compute; exact I|]. split; [reflexivity|].
    repeat (apply List.Forall2_cons; [vm_compute; reflexivity|]). apply List.Forall2_nil. }
  split_and!; vm_compute; reflexivity.
Qed.

(** The threshold is 0.5: 2^52 * 2^-53. *)
Theorem C90_threshold : notebook_threshold = SpecFloat.S754_finite false 4503599627370496 (-53).
Proof. vm_compute. reflexivity. Qed.

Print Assumptions C90_rows.
Print Assumptions C90_mutual.
Print Assumptions C90_copies.
Print Assumptions C90_notebook.
Print Assumptions C90_remove.
Print Assumptions C90_recall.
Print Assumptions C90_precision.
Print Assumptions C90_correct.
Print Assumptions C90_perfect_precision_refuted.
Print Assumptions C90_duplicate_ids_refuted.
Print Assumptions C90_threshold.
