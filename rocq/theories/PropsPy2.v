(** Property theorems C57, C58 for given tokens and for the classes of minhash.py and simhash.py;
    C59: tokenization. *)
From stdpp Require Import base list gmap strings.
From Coq Require Import NArith ZArith.
From Verif Require Import Base Par ParFacts Float Container ContainerFacts MinHashIndex SpecIndex SimilarityFacts
  MinHashIndexFacts MinHashIndexFacts2 MinHashIndexFacts3 MinHashIndexThms MinHasher
  Text SpecText TextFacts StringIndex SpecSimHash SimHashIndex SimHashIndexFacts
  PyTokenizer PyMinHash PySimHash SpecPy SpecPyClass PyFacts PySimFacts PropsPy.
Local Open Scope nat_scope.

Section MinHash.
Context (lower : text -> text)
        (shingles_str : list N -> nat -> option (list (list N)))
        (shingles_words : list (list N) -> nat -> option (list (list (list N)))).
Context (hash : token -> N) (draws : N -> nat -> nat -> N) (bh : list N -> N).
Context (ck : container_kind) (hk : hasher_kind).
Context (order : gset Z -> list Z) (sort : list (Z * f64) -> list (Z * f64)).
Context (nb bw : nat) (th : f64).
Section Native.
Context (an : option string) (lc : option bool) (range : option (nat * nat)).
Notation tokens :=
  (doc_tokens lower shingles_str shingles_words (tokenizer_new (default "word"%string an) range) (default false lc)).
Notation new := (py_make draws ck th nb bw an lc range).
Notation prun := (py_run lower shingles_str shingles_words hash bh ck hk).
Notation sg := (sig_tokens hk hash draws (nb * bw)).
Notation at_ops := (at_ops draws bh ck nb bw th (tokenizer_new (default "word"%string an) range) (default false lc)).
Notation trans := (trans lower shingles_str shingles_words hash draws hk nb bw
  (tokenizer_new (default "word"%string an) range) (default false lc)).

Theorem C57_tokens (ops : list py_op) (ts : list text) :
  is_order order -> fresh tokens ops ->
  exists l, py_query_tokens hash bh ck hk order (prun new ops) ts = Some l /\ NoDup l /\
    forall id, id ∈ l <-> expected_answer nb bw bh th (sg <$> content tokens ops) (sg (map as_str ts)) id.
Proof.
  intros Ho Hf. rewrite run_new. unfold py_query_tokens. rewrite tokens_sig. cbn [mbind option_bind].
  unfold py_query_sig. cbn [PyFacts.at_ops py_inner]. rewrite query_owned_query.
  destruct (exact_answer ck bh nb bw th (concat (trans <$> ops)) (sg (map as_str ts))) as (S & -> & HS);
    [by apply clean_run|apply sg_ok|].
  cbn. eexists. split; [done|]. split; [rewrite (Ho S); apply NoDup_elements|].
  intros id. rewrite (Ho S), elem_of_elements, HS, spec_run. done.
Qed.

Theorem C57_tokens_similarity (ops : list py_op) (ts : list text) :
  is_order order -> is_sort f64_ge sort -> fresh tokens ops ->
  exists l, py_query_tokens_return_similarity hash bh ck hk order sort (prun new ops) ts = Some l /\
    NoDup l.*1 /\
    (forall id v, (id, v) ∈ l <->
       expected_answer nb bw bh th (sg <$> content tokens ops) (sg (map as_str ts)) id /\
       exists t', content tokens ops !! id = Some t' /\ v = sim (sg t') (sg (map as_str ts))) /\
    forall i j a c, i < j -> l !! i = Some a -> l !! j = Some c -> f64_ge a.2 c.2 = true.
Proof.
  intros Ho Hs Hf. rewrite run_new. unfold py_query_tokens_return_similarity. rewrite tokens_sig.
  cbn [mbind option_bind]. cbn [PyFacts.at_ops py_inner]. set (t := map as_str ts).
  destruct (return_similarity_spec (container ck Z) bh nb bw th
    (after ck bh nb bw th (concat (trans <$> ops))) (spec_map (nb * bw) (concat (trans <$> ops)))
    (sg t) order sort) as (l & -> & Hnd & Hin & Hso); try done.
  - apply after_inv.
  - apply after_exact. by apply clean_run.
  - apply well_sized_run.
  - apply sg_ok.
  - exists l. split; [done|]. split; [done|]. split; [|done]. intros id v. rewrite Hin, spec_run.
    apply and_iff_compat_l. split.
    + intros (s & Hls & ->). rewrite lookup_fmap in Hls. destruct (content tokens ops !! id) as [t'|]; [|done].
      cbn in Hls. injection Hls as <-. eauto.
    + intros (t' & Hc & ->). exists (sg t'). by rewrite lookup_fmap, Hc.
Qed.
End Native.

(** ** The class: [new] is any object C53_class_constructor allows *)
Context (an : analyzer) (lc : option bool) (range : option (nat * nat)).
Notation name := (match an with Callable _ => "word"%string | Named s => s end).
Notation new := (ClassIndex ck hk (py_make draws ck th nb bw (Some name) lc range) an).
Notation native s := (doc_tokens lower shingles_str shingles_words (tokenizer_new s range) (default false lc)).
Notation toks := (class_tokens (fun s => native s) an).
Notation cstep := (class_step lower shingles_str shingles_words hash bh).
Notation crun := (class_run lower shingles_str shingles_words hash bh).
Notation sg := (sig_tokens hk hash draws (nb * bw)).

Lemma call_asked o : asked (native name) (class_call an o) = casked toks o.
Proof.
  destruct an as [s|f], o as [id doc|s1 s2 ids docs|id]; try done. cbn [class_call asked casked].
  by rewrite <- list_fmap_compose.
Qed.

Lemma call_batch o : batch_raises (native name) (class_call an o) = cbatch_raises toks o.
Proof.
  destruct an as [s|f], o as [id doc|s1 s2 ids docs|id]; try done. cbn [class_call batch_raises cbatch_raises].
  assert (E : missing (class_tokens (fun s => native s) (Callable f) <$> docs) = false).
  { clear. by induction docs. }
  by rewrite E, andb_false_r.
Qed.

Lemma call_step c o : content_step (native name) c (class_call an o) = ccontent_step toks c o.
Proof.
  pose proof (call_asked o) as Ha. pose proof (call_batch o) as Hb.
  destruct an as [s|f], o as [id doc|s1 s2 ids docs|id]; try done; cbn [class_call content_step ccontent_step] in *;
    by rewrite Ha, Hb.
Qed.

Lemma call_content ops : content (native name) (class_call an <$> ops) = ccontent toks ops.
Proof.
  unfold content, ccontent. generalize (∅ : gmap Z (list token)) as c.
  induction ops as [|o ops IH]; intros c; [done|]. cbn [fmap list_fmap fold_left]. by rewrite call_step, IH.
Qed.

Lemma call_fresh ops : cfresh toks ops -> fresh (native name) (class_call an <$> ops).
Proof.
  unfold fresh, cfresh. generalize (∅ : gmap Z (list token)) as c.
  induction ops as [|o ops IH]; intros c; [done|]. cbn [fmap list_fmap fresh_from cfresh_from].
  rewrite call_batch, call_asked, call_step. intros [H1 H2]. split; [done|]. by apply IH.
Qed.

Theorem C57_class_raises (ops : list class_op) (o : class_op) :
  (cstep (crun new ops) o).2 = craises toks o.
Proof.
  rewrite class_run_eq. unfold class_step. cbn [c_container c_hash c_native c_analyzer snd].
  rewrite (C53_raises lower shingles_str shingles_words hash draws bh ck hk nb bw th (Some name) lc range).
  cbn [default]. unfold raises, craises. by rewrite call_asked, call_batch.
Qed.

Theorem C57_class_size (ops : list class_op) : class_size (crun new ops) = size (ccontent toks ops).
Proof.
  rewrite class_run_eq. unfold class_size. cbn [c_container c_hash c_native c_analyzer].
  rewrite (C57_size lower shingles_str shingles_words hash draws bh ck hk nb bw th (Some name) lc range).
  cbn [default]. by rewrite call_content.
Qed.

Theorem C57_class_exact (ops : list class_op) (doc : text) (t : list token) :
  is_order order -> cfresh toks ops -> toks doc = Some t ->
  exists l, class_query lower shingles_str shingles_words hash bh order (crun new ops) doc = Some l /\
    forall id, id ∈ l <-> expected_answer nb bw bh th (sg <$> ccontent toks ops) (sg t) id.
Proof.
  intros Ho Hf Ht. apply call_fresh in Hf.
  rewrite <- call_content. rewrite class_run_eq. unfold class_query.
  cbn [c_container c_hash c_native c_analyzer]. destruct an as [s|f].
  - exact (C57_exact lower shingles_str shingles_words hash draws bh ck hk order nb bw th (Some s) lc range
      _ doc t Ho Hf Ht).
  - cbn in Ht. injection Ht as <-.
    destruct (C57_tokens (Some "word"%string) lc range (class_call (Callable f) <$> ops) (f doc) Ho Hf)
      as (l & Hl & _ & Hin). by exists l.
Qed.

Theorem C57_class_similarity (ops : list class_op) (doc : text) (t : list token) :
  is_order order -> is_sort f64_ge sort -> cfresh toks ops -> toks doc = Some t ->
  exists l, class_query_return_similarity lower shingles_str shingles_words hash bh order sort (crun new ops) doc = Some l /\
    NoDup l.*1 /\
    (forall id v, (id, v) ∈ l <->
       expected_answer nb bw bh th (sg <$> ccontent toks ops) (sg t) id /\
       exists t', ccontent toks ops !! id = Some t' /\ v = sim (sg t') (sg t)) /\
    forall i j a c, i < j -> l !! i = Some a -> l !! j = Some c -> f64_ge a.2 c.2 = true.
Proof.
  intros Ho Hs Hf Ht. apply call_fresh in Hf.
  rewrite <- call_content. rewrite class_run_eq. unfold class_query_return_similarity.
  cbn [c_container c_hash c_native c_analyzer]. destruct an as [s|f].
  - exact (C57_similarity lower shingles_str shingles_words hash draws bh ck hk order sort nb bw th (Some s) lc range
      _ doc t Ho Hs Hf Ht).
  - cbn in Ht. injection Ht as <-.
    exact (C57_tokens_similarity (Some "word"%string) lc range (class_call (Callable f) <$> ops) (f doc) Ho Hs Hf).
Qed.

(** Without the restriction to fresh histories: every answer is stored and reaches the threshold. *)
Theorem C57_class_sound (ops : list class_op) (doc : text) (l : list Z) : is_order order ->
  class_query lower shingles_str shingles_words hash bh order (crun new ops) doc = Some l ->
  NoDup l /\ exists t, toks doc = Some t /\
    forall id, id ∈ l -> exists t', ccontent toks ops !! id = Some t' /\ f64_ge (sim (sg t') (sg t)) th = true.
Proof.
  intros Ho. rewrite <- call_content. rewrite class_run_eq. unfold class_query.
  cbn [c_container c_hash c_native c_analyzer]. destruct an as [s|f].
  - exact (C57_sound lower shingles_str shingles_words hash draws bh ck hk order nb bw th (Some s) lc range
      _ doc l Ho).
  - cbn [class_tokens]. rewrite (run_new lower shingles_str shingles_words hash draws bh ck hk nb bw th (Some "word"%string) lc range).
    unfold py_query_tokens. rewrite tokens_sig. cbn [mbind option_bind].
    unfold py_query_sig. cbn [PyFacts.at_ops py_inner]. rewrite query_owned_query.
    destruct (query _ _ _ _) as [S|] eqn:Eq; [|done]. cbn. intros [= <-]. split.
    { rewrite (Ho S). apply NoDup_elements. }
    eexists. split; [done|]. intros id Hid. rewrite (Ho S), elem_of_elements in Hid.
    destruct (query_sound _ bh nb bw th _ _ _ _ id (after_inv ck bh nb bw th _) Eq Hid) as (s & Hs & _ & Hge).
    rewrite spec_run, lookup_fmap in Hs. cbn [default] in Hs. destruct (content _ _ !! id) as [t'|]; [|done].
    cbn in Hs. injection Hs as <-. eauto.
Qed.

Theorem C57_class_bulk (m : class_index) (s1 s2 : list nat) (docs : list text) :
  class_par_bulk_query lower shingles_str shingles_words hash bh order s1 s2 m docs =
    mapM (class_query lower shingles_str shingles_words hash bh order m) docs /\
  class_par_bulk_query_return_similarity lower shingles_str shingles_words hash bh order sort s1 s2 m docs =
    mapM (class_query_return_similarity lower shingles_str shingles_words hash bh order sort m) docs.
Proof.
  assert (Hf : forall {A B C} (f : A -> B) (g : B -> option C) l, mapM g (f <$> l) = mapM (fun a => g (f a)) l).
  { clear. intros A B C f g l. induction l as [|a l IH]; [done|]. cbn. by rewrite IH. }
  unfold class_par_bulk_query, class_par_bulk_query_return_similarity, class_query, class_query_return_similarity.
  destruct (c_analyzer m) as [s|f].
  - destruct (C57_bulk lower shingles_str shingles_words hash bh (c_container m) (c_hash m) order sort (c_native m)
      s1 s2 docs []) as (H1 & H2 & _). by rewrite H1, H2.
  - destruct (C57_bulk lower shingles_str shingles_words hash bh (c_container m) (c_hash m) order sort (c_native m)
      s1 s2 [] (f <$> docs)) as (_ & _ & H1 & H2). by rewrite H1, H2, !Hf.
Qed.
End MinHash.

(** ** The simhash class *)
Section SimHash.
Context (lower : text -> text)
        (shingles_str : list N -> nat -> option (list (list N)))
        (shingles_words : list (list N) -> nat -> option (list (list (list N)))).
Context (W : nat) (hash : token -> N).
Context (order : gset Z -> list Z) (sort : list (Z * nat) -> list (Z * nat)).
Notation toks m := (doc_tokens lower shingles_str shingles_words (ps_tokenizer m) (ps_lowercase m)).
Notation srun := (ps_run lower shingles_str shingles_words W hash).
Notation sg := (ssig_tokens W hash).

Theorem C58_tokens (nb d : nat) name lc range (m : py_sindex) (ops : list py_sop) (ts : list text) :
  1 < W -> ps_new W nb d name lc range = Some m -> is_order order ->
  exists l, ps_query_tokens W hash order (srun m ops) ts = Some l /\ NoDup l /\
    forall id, id ∈ l <-> exists t', scontent (toks m) ops !! id = Some t' /\ hamming W (sg (map as_str ts)) (sg t') < d.
Proof.
  intros HW Hm Ho.
  destruct (srun_inv lower shingles_str shingles_words W hash nb d name lc range m ops HW Hm) as [Hd Hinv].
  unfold ps_query_tokens. rewrite stokens_sig. set (t := map as_str ts). cbn [mbind option_bind].
  destruct (squery_exact W nb d _ _ (sg t) HW Hd Hinv) as (S & -> & HS); [apply ssg_ok|].
  cbn. eexists. split; [done|]. split; [rewrite (Ho S); apply NoDup_elements|].
  intros id. rewrite (Ho S), elem_of_elements, HS. split.
  - intros (s & Hs' & Hlt). rewrite lookup_fmap in Hs'.
    destruct (scontent _ _ !! id) as [t'|]; [|done]. cbn in Hs'. injection Hs' as <-. eauto.
  - intros (t' & Hc & Hlt). exists (sg t'). by rewrite lookup_fmap, Hc.
Qed.

Theorem C58_tokens_distance (nb d : nat) name lc range (m : py_sindex) (ops : list py_sop) (ts : list text) :
  1 < W -> ps_new W nb d name lc range = Some m -> is_order order -> is_sort_by_distance sort ->
  exists l, ps_query_tokens_return_distance W hash order sort (srun m ops) ts = Some l /\
    NoDup l.*1 /\
    (forall id k, (id, k) ∈ l <->
       exists t', scontent (toks m) ops !! id = Some t' /\ k = hamming W (sg (map as_str ts)) (sg t') /\ k < d) /\
    forall i j a b, i < j -> l !! i = Some a -> l !! j = Some b -> a.2 <= b.2.
Proof.
  intros HW Hm Ho Hs.
  destruct (srun_inv lower shingles_str shingles_words W hash nb d name lc range m ops HW Hm) as [Hd Hinv].
  unfold ps_query_tokens_return_distance. rewrite stokens_sig. set (t := map as_str ts). cbn [mbind option_bind].
  destruct (squery_return_distance_spec W nb d _ _ (sg t) order sort HW Hd Hinv) as (l & -> & Hnd & Hin & Hle);
    [apply ssg_ok|done|done|].
  exists l. split; [done|]. split; [done|]. split; [|done]. intros id k. rewrite Hin. split.
  - intros (s & Hls & Hk). rewrite lookup_fmap in Hls.
    destruct (scontent _ _ !! id) as [t'|]; [|done]. cbn in Hls. injection Hls as <-. eauto.
  - intros (t' & Hc & Hk). exists (sg t'). by rewrite lookup_fmap, Hc.
Qed.

(** The class: [l] are the documents inserted, in order. *)
Context (sched1 sched2 : list nat).
Theorem C58_class (nb d : nat) lc range (an : analyzer) (m : py_sindex) (l : list (Z * text)) (doc : text) (t : list token) :
  let ctoks := class_tokens (fun s =>
    doc_tokens lower shingles_str shingles_words (tokenizer_new s range) (default false lc)) an in
  let content := fold_left (fun c p => put c [(p.1, ctoks p.2)]) l ∅ in
  1 < W -> ps_new W nb d (Some match an with Callable _ => "word"%string | Named s => s end) lc range = Some m ->
  is_order order -> ctoks doc = Some t ->
  exists ids,
    sclass_query lower shingles_str shingles_words W hash order sort sched1 sched2
      (srun m ((fun p => sclass_insert an p.1 p.2) <$> l)) an doc false = Value (VIds ids) /\
    NoDup ids /\
    forall id, id ∈ ids <-> exists t', content !! id = Some t' /\ hamming W (sg t) (sg t') < d.
Proof.
  cbn zeta. intros HW Hm Ho Ht.
  assert (Em : ps_tokenizer m = tokenizer_new (match an with Callable _ => "word"%string | Named s => s end) range
    /\ ps_lowercase m = default false lc).
  { unfold ps_new in Hm. destruct (sindex_new W nb d) as [inner|]; [|done]. cbn in Hm. by injection Hm as <-. }
  destruct Em as [Em1 Em2].
  assert (Ec : scontent (toks m) ((fun p => sclass_insert an p.1 p.2) <$> l) =
    fold_left (fun c p => put c [(p.1, class_tokens (fun s =>
      doc_tokens lower shingles_str shingles_words (tokenizer_new s range) (default false lc)) an p.2)]) l ∅).
  { unfold scontent. generalize (∅ : gmap Z (list token)) as c. induction l as [|p l IH]; intros c; [done|].
    cbn [fmap list_fmap fold_left]. rewrite IH. f_equal. rewrite Em1, Em2. by destruct an. }
  rewrite <- Ec. unfold sclass_query. destruct an as [s|f].
  - destruct (C58_exact lower shingles_str shingles_words W hash order nb d _ lc range m
      ((fun p => sclass_insert (Named s) p.1 p.2) <$> l) doc t HW Hm Ho) as (ids & Hq & Hnd & Hin).
    { rewrite Em1, Em2. exact Ht. }
    exists ids. split; [|done]. unfold native_call. cbn [String.eqb Ascii.eqb Bool.eqb]. unfold outcome. by rewrite Hq.
  - cbn in Ht. injection Ht as <-.
    destruct (C58_tokens nb d _ lc range m ((fun p => sclass_insert (Callable f) p.1 p.2) <$> l) (f doc) HW Hm Ho)
      as (ids & Hq & Hnd & Hin).
    exists ids. split; [|done]. unfold native_call. cbn [String.eqb Ascii.eqb Bool.eqb]. unfold outcome. by rewrite Hq.
Qed.
End SimHash.

(** ** C59 *)
Section Tokenization.
Context (lower : text -> text)
        (shingles_str : list N -> nat -> option (list (list N)))
        (shingles_words : list (list N) -> nat -> option (list (list (list N)))).
Notation tokens := (doc_tokens lower shingles_str shingles_words).
Notation cased lowercase doc := (if lowercase then lower doc else doc : text).

Lemma windows_fmap {A B} (f : A -> B) (l : list A) from to :
  shingle_windows (f <$> l) from to = (fun w : list A => f <$> w) <$> shingle_windows l from to.
Proof.
  assert (Hw : forall p s, window (f <$> l) p s = f <$> window l p s).
  { intros p s. unfold window. by rewrite fmap_take, fmap_drop. }
  assert (Hl : forall p (sizes : list nat), window (f <$> l) p <$> sizes = (fun w : list A => f <$> w) <$> (window l p <$> sizes)).
  { intros p sizes. rewrite <- list_fmap_compose. apply list_fmap_ext. intros. apply Hw. }
  unfold shingle_windows. rewrite fmap_length, fmap_app, Hl. f_equal.
  generalize (seq 0 (length l + 1 - to)) as ps. intros ps. induction ps as [|p ps IH]; [done|].
  cbn [fmap list_fmap mjoin list_join]. rewrite fmap_app, Hl. f_equal. apply IH.
Qed.

Lemma words_runs doc ws : runs doc ws -> words doc = utf8_text <$> ws.
Proof. intros H. unfold words. by rewrite (runs_split _ _ H). Qed.

Lemma char_windows from to doc : 1 <= from < to ->
  map TStr <$> all_items (shingle_text_range (rounds (length doc) to) (utf8_text doc) from to)
  = Some (as_str <$> shingle_windows doc from to).
Proof.
  intros H. unfold shingle_text_range.
  change (multi_shingles (utf8_text doc) from to) with (encoded (multi_shingles doc from to)).
  rewrite (str_simulates (multi_shingles doc from to) (shingle_windows doc from to)).
  - unfold all_items. cbn. f_equal. rewrite <- list_fmap_compose. done.
  - done.
  - cbn. lia.
  - cbn. lia.
  - apply slice_shingles; lia.
  - rewrite fmap_length. apply windows_length.
Qed.

Lemma word_windows from to doc ws : from < to -> runs doc ws ->
  map TWords <$> all_items (drive slice_next (rounds (length (words doc)) to) (multi_shingles (words doc) from to))
  = Some ((fun w => TWords (utf8_text <$> w)) <$> shingle_windows ws from to).
Proof.
  intros H Hr. rewrite (slice_shingles (words doc) from to); [|lia|lia|apply windows_length].
  unfold all_items. cbn. f_equal. rewrite (words_runs _ _ Hr), windows_fmap.
  rewrite <- list_fmap_compose. done.
Qed.

Theorem C59_tokens (name : string) (range : option (nat * nat)) (lowercase : bool) (doc : text) (ts : list token) :
  match range with Some (from, to) => from < to /\ (name = "char"%string -> 1 <= from) | None => True end ->
  tokens (tokenizer_new name range) lowercase doc = Some ts <->
  spec_tokens name range (cased lowercase doc) ts.
Proof.
  intros Hr. unfold doc_tokens. generalize (cased lowercase doc) as d. clear doc. intros d.
  assert (Hs : forall ts, spec_tokens name range d ts -> tokenize shingles_str shingles_words (tokenizer_new name range) d = Some ts).
  { clear ts Hr. intros ts Hs. unfold tokenizer_new. destruct Hs as [name d ws Hn Hw|d|from to d H|name from to d ws Hn H Hw].
    - rewrite (proj2 (String.eqb_neq _ _) Hn). cbn [tokenize]. rewrite (words_runs _ _ Hw).
      by rewrite <- list_fmap_compose.
    - cbn [String.eqb Ascii.eqb Bool.eqb]. cbn [tokenize]. apply char_windows. lia.
    - cbn [String.eqb Ascii.eqb Bool.eqb fst snd]. rewrite (proj2 (Nat.eqb_neq _ _)) by lia. by apply char_windows.
    - rewrite (proj2 (String.eqb_neq _ _) Hn). cbn [fst snd]. rewrite (proj2 (Nat.eqb_neq _ _)) by lia.
      by apply word_windows. }
  split; [|apply Hs]. intros Ht.
  assert (exists ts', spec_tokens name range d ts') as [ts' Hts'].
  { pose proof (split_runs d) as Hw.
    destruct (decide (name = "char"%string)) as [->|Hn], range as [[from to]|].
    - eexists. apply st_chars. destruct Hr as [? Hr]. specialize (Hr eq_refl). lia.
    - eexists. apply st_chars_default.
    - eexists. eapply st_word_windows; [done|lia|exact Hw].
    - eexists. eapply st_words; [done|exact Hw]. }
  pose proof (Hs ts' Hts') as Ht'. rewrite Ht in Ht'. by injection Ht' as ->.
Qed.

(** A range (n, n) goes to the crate [shingles]. *)
Theorem C59_single_size (name : string) (n : nat) (lowercase : bool) (doc : text) :
  tokens (tokenizer_new name (Some (n, n))) lowercase doc =
  if decide (name = "char"%string) then map TStr <$> shingles_str (utf8_text (cased lowercase doc)) n
  else map TWords <$> shingles_words (utf8_text <$> whitespace_split (cased lowercase doc)) n.
Proof.
  unfold doc_tokens, tokenizer_new. cbn [fst snd]. rewrite Nat.eqb_refl.
  destruct (decide (name = "char"%string)) as [->|Hn]; [done|].
  by rewrite (proj2 (String.eqb_neq _ _) Hn).
Qed.

Lemma inverted_tokens (name : string) (from to : nat) (d : text) (ws : list text) : to < from -> runs d ws ->
  tokenize shingles_str shingles_words (tokenizer_new name (Some (from, to))) d = Some
    (if decide (name = "char"%string) then (fun p => as_str (window d p from)) <$> seq 0 (length d + 1 - from)
     else (fun p => TWords (utf8_text <$> window ws p from)) <$> seq 0 (length ws + 1 - from)).
Proof.
  intros Hlt Hw.
  unfold tokenizer_new. cbn [fst snd]. rewrite (proj2 (Nat.eqb_neq _ _)) by lia.
  destruct (decide (name = "char"%string)) as [->|Hn].
  - cbn [String.eqb Ascii.eqb Bool.eqb tokenize]. unfold shingle_text_range.
    change (multi_shingles (utf8_text d) from to) with (encoded (multi_shingles d from to)).
    rewrite (str_simulates (multi_shingles d from to) ((fun p => window d p from) <$> seq 0 (length d + 1 - from))).
    + unfold all_items. cbn. f_equal. rewrite <- !list_fmap_compose. done.
    + done.
    + cbn. lia.
    + cbn. lia.
    + apply slice_inverted; lia.
    + rewrite !fmap_length, seq_length. unfold rounds. nia.
  - rewrite (proj2 (String.eqb_neq _ _) Hn). cbn [tokenize].
    rewrite (slice_inverted (words d) from to); [|lia|lia|rewrite fmap_length, seq_length; unfold rounds; nia].
    unfold all_items. cbn. f_equal. rewrite (words_runs _ _ Hw), fmap_length.
    rewrite <- list_fmap_compose. apply list_fmap_ext. intros i p _. unfold compose, window.
    by rewrite fmap_take, fmap_drop.
Qed.

(** A descending range yields the windows of its first number. *)
Theorem C59_inverted (name : string) (from to : nat) (lowercase : bool) (doc : text) (ws : list text) :
  to < from -> runs (cased lowercase doc) ws ->
  tokens (tokenizer_new name (Some (from, to))) lowercase doc = Some
    (if decide (name = "char"%string) then
       (fun p => as_str (window (cased lowercase doc) p from)) <$> seq 0 (length (cased lowercase doc) + 1 - from)
     else (fun p => TWords (utf8_text <$> window ws p from)) <$> seq 0 (length ws + 1 - from)).
Proof. intros Hlt Hw. unfold doc_tokens. destruct lowercase; by apply inverted_tokens. Qed.

(** A range of characters that starts at 0 yields nothing. *)
Theorem C59_char_zero (to : nat) (lowercase : bool) (doc : text) :
  0 < to -> cased lowercase doc ≠ [] ->
  tokens (tokenizer_new "char" (Some (0, to))) lowercase doc = Some [].
Proof.
  intros Hto Hne. unfold doc_tokens, tokenizer_new. cbn [fst snd String.eqb Ascii.eqb Bool.eqb].
  rewrite (proj2 (Nat.eqb_neq _ _)) by lia. cbn [tokenize].
  revert Hne. generalize (cased lowercase doc) as d. intros d Hne.
  assert (exists r, rounds (length d) to = S r) as [r ->].
  { exists (rounds (length d) to - 1). unfold rounds. nia. }
  unfold shingle_text_range, multi_shingles. cbn [drive]. rewrite str_next_spec.
  rewrite decide_False; [done|]. intros [?|[_ ?]]; [lia|done].
Qed.
End Tokenization.

(** Not all n-grams with n in the range are tokens. *)
Theorem C59_all_ngrams_refuted :
  exists (doc : text) (ws : list text) (from to p n : nat) (ts : list token),
    runs doc ws /\ from <= n <= to /\ p + n <= length ws /\
    doc_tokens ex_lower ex_shingles ex_shingles (tokenizer_new "word" (Some (from, to))) false doc = Some ts /\
    TWords (utf8_text <$> window ws p n) ∉ ts.
Proof.
  eexists doc_b, _, 1, 3, 5, 1, _. split; [apply split_runs|]. split; [lia|]. split; [by apply (bool_decide_unpack _)|].
  split; [vm_compute; reflexivity|]. vm_compute. intros H.
  repeat (apply elem_of_cons in H as [H|H]; [discriminate H|]). by apply elem_of_nil in H.
Qed.

(** "dogs!" with (1, 2) words, with the default of characters, and "The cat" with (2, 1). *)
Example C59_example :
  spec_tokens "word" (Some (1, 2)) doc_c [TWords [[100;111;103;115]%N]] /\
  spec_tokens "char" None doc_c
    (TStr <$> [[100;111;103]; [100;111;103;115]; [111;103;115]; [111;103;115;33]; [103;115;33]]%N) /\
  doc_tokens ex_lower ex_shingles ex_shingles (tokenizer_new "word" (Some (2, 1))) true (take 7 doc_b) =
    Some [TWords [[116;104;101]; [99;97;116]]%N] /\
  doc_tokens ex_lower ex_shingles ex_shingles (tokenizer_new "char" (Some (0, 2))) true doc_c = Some [].
Proof.
  split; [|split; [|split; vm_compute; reflexivity]].
  - exact (st_word_windows "word" 1 2 doc_c [[100;111;103;115]%N] ltac:(done) ltac:(lia) (split_runs doc_c)).
  - exact (st_chars_default doc_c).
Qed.

(** A callable splitting into words longer than one letter. *)
Definition ex_callable : analyzer := Callable (fun t => filter (fun w => 1 < length w) (whitespace_split t)).
Definition ex_cnew : class_index :=
  ClassIndex KHashSet MinHasher32 (py_make ex_draws KHashSet half 10 2 (Some "word"%string) None None) ex_callable.
Definition ex_cops : list class_op :=
  [CParBulkInsertDocs [] [] [1; 2; 3]%Z [doc_a; doc_b; doc_c]; CRemove 3].
Notation ex_ctoks := (class_tokens (fun s => doc_tokens ex_lower ex_shingles ex_shingles (tokenizer_new s None) false) ex_callable).
Example C57_class_example :
  cfresh ex_ctoks ex_cops /\
  (ex_ctoks (take 6 doc_b) = Some [TStr [84;104;101]; TStr [99;97]]%N /\ length (words doc_b) = 6) /\
  class_size (class_run ex_lower ex_shingles ex_shingles ex_token ex_bh ex_cnew ex_cops) = 2 /\
  class_query ex_lower ex_shingles ex_shingles ex_token ex_bh elements
    (class_run ex_lower ex_shingles ex_shingles ex_token ex_bh ex_cnew ex_cops) doc_a = Some [1; 2]%Z.
Proof.
  split.
  { vm_compute. repeat first [exact I|reflexivity|split|intros _]. }
  vm_compute. split_and!; reflexivity.
Qed.

Example C58_class_example :
  (m ← ps_new 64 5 4 (Some "word"%string) None None;
   ps_query_tokens 64 ex_token elements
     (ps_run ex_lower ex_shingles ex_shingles 64 ex_token m
        ((fun p => sclass_insert ex_callable p.1 p.2) <$> [(1%Z, doc_a); (2%Z, doc_b); (3%Z, doc_c)]))
     (whitespace_split doc_a)) = Some [1; 2]%Z.
Proof. vm_compute. reflexivity. Qed.

Print Assumptions C57_tokens.
Print Assumptions C57_tokens_similarity.
Print Assumptions C57_class_raises.
Print Assumptions C57_class_size.
Print Assumptions C57_class_exact.
Print Assumptions C57_class_similarity.
Print Assumptions C57_class_sound.
Print Assumptions C57_class_bulk.
Print Assumptions C58_tokens.
Print Assumptions C58_tokens_distance.
Print Assumptions C58_class.
Print Assumptions C59_tokens.
Print Assumptions C59_single_size.
Print Assumptions C59_inverted.
Print Assumptions C59_char_zero.
Print Assumptions C59_all_ngrams_refuted.
