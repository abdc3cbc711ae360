(** Proofs about the Python classes: tokenization and the minhash index. *)
From stdpp Require Import base list gmap strings.
From Coq Require Import NArith ZArith.
From Verif Require Import ListFacts Base Par ParFacts Float Container ContainerFacts MinHashIndex SpecIndex
  SimilarityFacts MinHashIndexFacts MinHashIndexFacts2 MinHashIndexFacts3 MinHashIndexThms
  MinHasher SpecMinHash MinHasherFacts Params ParamsFacts Text SpecText TextFacts StringIndex
  PyTokenizer PyMinHash SpecPy.
Local Open Scope nat_scope.

(** ** The rounds are enough *)
Lemma windows_length {A} (l : list A) from to : length (shingle_windows l from to) < rounds (length l) to.
Proof.
  unfold shingle_windows, rounds. rewrite app_length, fmap_length, seq_length.
  set (k := length l + 1 - to).
  assert (E : forall a, length (mjoin ((fun p => window l p <$> seq from (to + 1 - from)) <$> seq a k))
    = k * (to + 1 - from)).
  { intros a. clearbody k. revert a. induction k as [|k IH]; intros a; [done|].
    cbn [seq fmap list_fmap mjoin list_join]. rewrite app_length, fmap_length, seq_length.
    change (length (mjoin ((fun p => window l p <$> seq from (to + 1 - from)) <$> seq (S a) k)))
      with (length (mjoin ((fun p => window l p <$> seq from (to + 1 - from)) <$> seq (S a) k))).
    rewrite IH. lia. }
  rewrite E.
  assert (H1 : k * (to + 1 - from) <= (length l + 1) * (to + 1)) by (apply Nat.mul_le_mono; unfold k; lia).
  nia.
Qed.

Lemma slice_items {A} (l : list A) from to : from ≠ to ->
  exists items, ends slice_next (multi_shingles l from to) items /\ length items < rounds (length l) to.
Proof.
  intros Hne. destruct (decide (from < to)) as [Hlt|Hge].
  - eexists. split; [apply slice_shingles; lia|]. apply windows_length.
  - eexists. split; [apply slice_inverted; lia|]. rewrite fmap_length, seq_length. unfold rounds. nia.
Qed.

Lemma slice_total {A} (l : list A) from to : from ≠ to ->
  is_Some (all_items (drive slice_next (rounds (length l) to) (multi_shingles l from to))).
Proof.
  intros Hne. destruct (slice_items l from to Hne) as (items & He & Hl).
  rewrite (He _ Hl). unfold all_items. cbn. eauto.
Qed.

Lemma str_total (text : list N) from to : from ≠ to ->
  is_Some (all_items (shingle_text_range (rounds (length text) to) (utf8_text text) from to)).
Proof.
  intros Hne. destruct (decide (1 <= from)) as [H1|H0].
  - destruct (slice_items text from to Hne) as (items & He & Hl).
    unfold shingle_text_range.
    change (multi_shingles (utf8_text text) from to) with (encoded (multi_shingles text from to)).
    rewrite (str_simulates (multi_shingles text from to) items ltac:(done) H1 H1 He).
    + unfold all_items. cbn. eauto.
    + by rewrite fmap_length.
  - assert (from = 0) as -> by lia.
    assert (exists r, rounds (length text) to = S (S r)) as [r ->].
    { exists (rounds (length text) to - 2). unfold rounds. nia. }
    destruct text as [|c text].
    + destruct to as [|[|to]]; [lia|by eexists..].
    + unfold shingle_text_range, multi_shingles. cbn [drive]. rewrite str_next_spec.
      rewrite decide_False; [|intros [?|[_ ?]]; [lia|done]]. unfold all_items. cbn. eauto.
Qed.

Section Tokens.
Context (lower : text -> text)
        (shingles_str : list N -> nat -> option (list (list N)))
        (shingles_words : list (list N) -> nat -> option (list (list (list N)))).

(** Only the single-size shingles of the external crate can fail. *)
Lemma tokens_total name range lowercase doc :
  match range with Some r => r.1 ≠ r.2 | None => True end ->
  is_Some (doc_tokens lower shingles_str shingles_words (tokenizer_new name range) lowercase doc).
Proof.
  intros Hr. unfold doc_tokens, tokenizer_new.
  destruct (String.eqb name "char"); destruct range as [[a b]|]; cbn [fst snd] in *.
  - rewrite (proj2 (Nat.eqb_neq a b)) by done. cbn [tokenize].
    apply fmap_is_Some. by apply str_total.
  - cbn [tokenize]. apply fmap_is_Some. apply str_total. lia.
  - rewrite (proj2 (Nat.eqb_neq a b)) by done. cbn [tokenize].
    apply fmap_is_Some. by apply slice_total.
  - cbn. eauto.
Qed.
End Tokens.

(** ** The minhash class performs index operations *)
Section PyIndex.
Context (lower : text -> text)
        (shingles_str : list N -> nat -> option (list (list N)))
        (shingles_words : list (list N) -> nat -> option (list (list (list N)))).
Context (hash : token -> N) (draws : N -> nat -> nat -> N) (bh : list N -> N).
Context (ck : container_kind) (hk : hasher_kind).
Context (nb bw : nat) (th : f64) (tk : tokenizer) (lc : bool).
Notation K := (container ck Z).
Notation n := (nb * bw).
Notation hs := (new_with_hasher draws n).
Notation sg := (sig_tokens hk hash draws n).
Notation toks := (doc_tokens lower shingles_str shingles_words tk lc).
Notation step := (py_step lower shingles_str shingles_words hash bh ck hk).
Notation prun := (py_run lower shingles_str shingles_words hash bh ck hk).
Implicit Types (iops : list (op Z N)) (c : gmap Z (list token)).

Definition at_ops iops : py_index ck := PyIndex (after ck bh nb bw th iops) hs tk lc.

Lemma sg_ok (t : list token) : create_signature hk hash hs t = Some (sg t) /\ length (sg t) = n.
Proof.
  unfold sig_tokens, new_with_hasher.
  destruct (signature_shape hash draws n 3%N hk t) as (s & Hs & Hl & _). by rewrite Hs.
Qed.

Lemma doc_sig iops doc : py_doc_signature lower shingles_str shingles_words hash ck hk (at_ops iops) doc = sg <$> toks doc.
Proof.
  unfold py_doc_signature. cbn [at_ops py_tokenizer py_lowercase py_hasher].
  destruct (toks doc) as [t|]; [|done]. cbn. apply sg_ok.
Qed.

Lemma tokens_sig iops ts : py_tokens_signature hash ck hk (at_ops iops) ts = Some (sg (map as_str ts)).
Proof. unfold py_tokens_signature. cbn [at_ops py_hasher]. apply sg_ok. Qed.

Lemma insert_at iops id t :
  py_insert_sig bh ck id (Some (sg t)) (at_ops iops) = (at_ops (iops ++ [Insert id (sg t)]), false).
Proof.
  unfold py_insert_sig, with_inner. cbn [at_ops py_inner py_hasher py_tokenizer py_lowercase].
  pose proof (insert_inv K (container_laws_all ck) bh nb bw th (after ck bh nb bw th iops)
    (spec_map n iops) id (sg t) (after_inv ck bh nb bw th iops)) as Hi.
  cbn [spec_step spec_out] in Hi. destruct Hi as [_ Ho]. rewrite decide_True in Ho by apply sg_ok.
  rewrite Ho. f_equal. unfold at_ops, after. by rewrite run_snoc.
Qed.

Lemma remove_at iops id : py_remove bh ck id (at_ops iops) = (at_ops (iops ++ [Remove id]), false).
Proof.
  unfold py_remove, with_inner. cbn [at_ops py_inner py_hasher py_tokenizer py_lowercase].
  pose proof (remove_inv K (container_laws_all ck) bh nb bw th (after ck bh nb bw th iops)
    (spec_map n iops) id (after_inv ck bh nb bw th iops)) as Hi.
  cbn [spec_step spec_out] in Hi. destruct Hi as [_ Ho].
  rewrite Ho. f_equal. unfold at_ops, after. by rewrite run_snoc.
Qed.

Lemma bulk_at iops sched ids (ts : list (list token)) :
  py_insert_sigs bh ck sched ids (Some (sg <$> ts)) (at_ops iops) =
  (at_ops (iops ++ ((fun p => Insert p.1 (sg p.2)) <$> zip ids ts)), false).
Proof.
  assert (Hl : Forall (fun s => length s = n) (sg <$> ts)).
  { apply Forall_fmap, Forall_forall. intros t _. apply sg_ok. }
  unfold py_insert_sigs, with_inner. cbn [at_ops py_inner py_hasher py_tokenizer py_lowercase].
  pose proof (bulk_inv K (container_laws_all ck) bh nb bw th (after ck bh nb bw th iops)
    (spec_map n iops) sched ids (sg <$> ts) (after_inv ck bh nb bw th iops)) as Hi.
  cbn [spec_out] in Hi. destruct Hi as [_ Ho].
  assert (E : bulk_rejected n ids (sg <$> ts) = false).
  { unfold bulk_rejected. destruct ts as [|t ts]; [done|]. cbn [fmap list_fmap].
    rewrite bool_decide_false by (intros H; apply H; apply sg_ok). cbn [orb].
    unfold pairs_too_short. apply bool_decide_false. rewrite Exists_exists.
    intros ((x & s) & Hp & Hlt). apply elem_of_zip_r in Hp. rewrite Forall_forall in Hl.
    cbn in Hlt. rewrite (Hl s Hp) in Hlt. lia. }
  rewrite E in Ho. rewrite Ho. f_equal. unfold at_ops. f_equal.
  pose proof (bulk_insert_seq ck bh nb bw th iops sched ids (sg <$> ts) Hl) as Hb.
  unfold after in Hb at 1. rewrite run_snoc in Hb. cbn [MinHashIndex.step] in Hb.
  unfold after at 1. rewrite Hb. f_equal. f_equal.
  clear. revert ts. induction ids as [|id ids IH]; intros [|t ts]; [done..|].
  cbn. f_equal. apply IH.
Qed.

(** The pairs stored, and the index operations of a call. *)
Fixpoint ok_pairs (l : list (Z * option (list token))) : list (Z * list token) :=
  match l with
  | (id, Some t) :: l' => (id, t) :: ok_pairs l'
  | _ => []
  end.
Definition inserts (l : list (Z * option (list token))) : list (op Z N) :=
  (fun p => Insert p.1 (sg p.2)) <$> ok_pairs l.
Definition trans (o : py_op) : list (op Z N) :=
  match o with
  | PyRemove id => [Remove id]
  | _ => if batch_raises toks o then [] else inserts (asked toks o)
  end.

Lemma loop_at {A} body (l : list A) (key : A -> Z * option (list token)) iops :
  (forall a iops, body a (at_ops iops) = py_insert_sig bh ck (key a).1 (sg <$> (key a).2) (at_ops iops)) ->
  py_loop ck body l (at_ops iops) = (at_ops (iops ++ inserts (key <$> l)), missing (key <$> l).*2).
Proof.
  intros Hb. revert iops. induction l as [|a l IH]; intros iops.
  - cbn. by rewrite app_nil_r.
  - cbn [py_loop]. rewrite Hb. cbn [fmap list_fmap]. destruct (key a) as [id [t|]]; cbn [fst snd fmap option_fmap option_map].
    + rewrite insert_at. cbn [fst snd]. rewrite IH, <- app_assoc. done.
    + cbn. by rewrite app_nil_r.
Qed.

Lemma inserts_all (ids : list Z) (ts : list (list token)) :
  inserts (zip ids (Some <$> ts)) = (fun p => Insert p.1 (sg p.2)) <$> zip ids ts.
Proof.
  revert ts. induction ids as [|id ids IH]; intros [|t ts]; [done..|]. cbn. unfold inserts in IH.
  cbn [zip] in IH. by rewrite <- IH.
Qed.

Lemma missing_all (ids : list Z) (ts : list (list token)) : missing (zip ids (Some <$> ts)).*2 = false.
Proof. revert ts. induction ids as [|id ids IH]; intros [|t ts]; [done..|]. cbn. apply IH. Qed.

Lemma missing_mapM (f : text -> option (list token)) docs :
  (missing (f <$> docs) = true /\ mapM f docs = None) \/
  exists ts, missing (f <$> docs) = false /\ mapM f docs = Some ts /\ f <$> docs = Some <$> ts.
Proof.
  unfold missing. induction docs as [|d docs IH]; [right; by exists []|].
  cbn. destruct (f d) as [t|]; [|by left]. cbn.
  destruct IH as [[-> ->]|(ts & -> & -> & ->)]; [by left|]. right. by exists (t :: ts).
Qed.

Lemma missing_zip {A} (ids : list A) l : missing l = false -> missing (zip ids l).*2 = false.
Proof.
  revert l. induction ids as [|id ids IH]; intros [|x l]; [done..|]. cbn.
  destruct x; [|done]. cbn. apply IH.
Qed.

Lemma mapM_fmap_Some {A B C} (f : A -> option B) (g : B -> C) l :
  mapM (fun a => g <$> f a) l = fmap g <$> mapM f l.
Proof.
  induction l as [|a l IH]; [done|]. cbn. destruct (f a); [|done]. cbn. rewrite IH.
  by destruct (mapM f l).
Qed.

Lemma bulk_docs_at sched iops docs :
  bulk_hash_docs lower shingles_str shingles_words hash ck hk sched (at_ops iops) docs =
  fmap sg <$> mapM toks docs.
Proof.
  unfold bulk_hash_docs. rewrite par_map_mapM. rewrite <- mapM_fmap_Some.
  apply mapM_ext. intros d. apply doc_sig.
Qed.

Lemma bulk_tokens_at sched iops tss :
  bulk_hash_tokens hash ck hk sched (at_ops iops) tss = Some (sg <$> (map as_str <$> tss)).
Proof.
  unfold bulk_hash_tokens, bulk_create_signature. rewrite par_map_mapM. cbn [at_ops py_hasher].
  induction tss as [|ts tss IH]; [done|]. cbn. rewrite (proj1 (sg_ok _)). cbn. by rewrite IH.
Qed.

Lemma step_at iops o : step (at_ops iops) o = (at_ops (iops ++ trans o), raises toks o).
Proof.
  destruct o as [id doc|id ts|id|s1 s2 ids docs|ids tss|s1 s2 ids tss]; cbn [py_step trans].
  - unfold py_insert_document. rewrite doc_sig. unfold raises. cbn.
    destruct (toks doc) as [t|]; cbn [fmap option_fmap option_map].
    + rewrite insert_at. done.
    + cbn. by rewrite app_nil_r.
  - unfold py_insert_tokens. rewrite tokens_sig, insert_at. done.
  - by rewrite remove_at.
  - unfold py_par_bulk_insert_docs, raises. cbn [batch_raises asked].
    destruct (length ids <? 100)%nat eqn:El.
    + apply Nat.ltb_lt in El. rewrite (proj2 (Nat.leb_gt 100 (length ids))) by lia. cbn [andb orb].
      rewrite orb_false_r.
      rewrite (loop_at _ _ (fun p => (p.1, toks p.2))).
      * assert (E : (fun p => (p.1, toks p.2)) <$> zip ids docs = zip ids (toks <$> docs)).
        { clear. revert docs. induction ids as [|id ids IH]; intros [|d docs]; [done..|]. cbn. f_equal. apply IH. }
        by rewrite E.
      * intros p iops'. unfold py_insert_document. by rewrite doc_sig.
    + apply Nat.ltb_ge in El. rewrite (proj2 (Nat.leb_le 100 (length ids))) by lia. cbn [andb].
      rewrite bulk_docs_at. destruct (missing_mapM toks docs) as [[-> ->]|(ts & -> & -> & Ets)]; cbn [fmap option_fmap option_map].
      * cbn [py_insert_sigs]. rewrite app_nil_r, orb_true_r. done.
      * rewrite bulk_at. rewrite Ets, inserts_all, missing_all. done.
  - unfold py_bulk_insert_tokens, raises. cbn [batch_raises asked]. rewrite orb_false_r.
    rewrite (loop_at _ _ (fun p => (p.1, Some (map as_str p.2)))).
    + assert (E : (fun p => (p.1, Some (map as_str p.2))) <$> zip ids tss = zip ids ((fun t => Some (map as_str t)) <$> tss)).
      { clear. revert tss. induction ids as [|id ids IH]; intros [|d tss]; [done..|]. cbn. f_equal. apply IH. }
      by rewrite E.
    + intros p iops'. unfold py_insert_tokens. by rewrite tokens_sig.
  - unfold py_par_bulk_insert_tokens, raises. cbn [batch_raises asked]. rewrite orb_false_r.
    rewrite bulk_tokens_at, bulk_at.
    change ((fun t => Some (map as_str t)) <$> tss) with ((Some ∘ map as_str) <$> tss).
    rewrite list_fmap_compose. rewrite inserts_all, missing_all. done.
Qed.

Lemma run_at iops ops : prun (at_ops iops) ops = at_ops (iops ++ concat (trans <$> ops)).
Proof.
  unfold py_run. revert iops. induction ops as [|o ops IH]; intros iops; cbn [fold_left].
  - by rewrite app_nil_r.
  - rewrite step_at. cbn [fst]. rewrite IH, <- app_assoc. done.
Qed.

(** ** The stored signatures *)
Lemma spec_inserts iops c l : spec_map n iops = sg <$> c ->
  spec_map n (iops ++ inserts l) = sg <$> put c l.
Proof.
  revert iops c. induction l as [|[id [t|]] l IH]; intros iops c Hs.
  - cbn. by rewrite app_nil_r.
  - cbn [put]. change (inserts ((id, Some t) :: l)) with (Insert id (sg t) :: inserts l).
    rewrite cons_middle, app_assoc. apply IH. unfold spec_map. rewrite fold_left_app. cbn [fold_left spec_step].
    rewrite decide_True by apply sg_ok. unfold spec_map in Hs. by rewrite Hs, fmap_insert.
  - cbn. by rewrite app_nil_r.
Qed.

Lemma spec_trans iops c o : spec_map n iops = sg <$> c ->
  spec_map n (iops ++ trans o) = sg <$> content_step toks c o.
Proof.
  intros Hs. destruct o as [id doc|id ts|id|s1 s2 ids docs|ids tss|s1 s2 ids tss]; cbn [trans content_step].
  3:{ unfold spec_map in *. rewrite fold_left_app. cbn [fold_left spec_step]. by rewrite Hs, fmap_delete. }
  all: destruct (batch_raises _ _); [by rewrite app_nil_r|by apply spec_inserts].
Qed.

Lemma spec_run ops : spec_map n (concat (trans <$> ops)) = sg <$> content toks ops.
Proof.
  induction ops as [|o ops IH] using rev_ind.
  { change (content toks []) with (∅ : gmap Z (list token)). by rewrite fmap_empty. }
  rewrite fmap_app, concat_app. cbn [fmap list_fmap concat]. rewrite app_nil_r.
  unfold content. rewrite fold_left_app. cbn [fold_left]. by apply spec_trans.
Qed.

Lemma well_sized_run ops : well_sized n (spec_map n (concat (trans <$> ops))).
Proof.
  intros id s. rewrite spec_run, lookup_fmap. destruct (content toks ops !! id); [|done].
  cbn. intros [= <-]. apply sg_ok.
Qed.

(** ** Fresh histories are clean *)
Lemma clean_app (iops1 iops2 : list (op Z N)) m :
  clean_from n m (iops1 ++ iops2) <-> clean_from n m iops1 /\ clean_from n (fold_left (spec_step n) iops1 m) iops2.
Proof. revert m. induction iops1 as [|o iops1 IH]; intros m; cbn; [tauto|]. rewrite IH. tauto. Qed.

Lemma clean_inserts c l : fresh_put c l -> clean_from n (sg <$> c) (inserts l).
Proof.
  revert c. induction l as [|[id [t|]] l IH]; intros c; [done| |done].
  cbn [fresh_put]. intros [Hf Hr]. change (inserts ((id, Some t) :: l)) with (Insert id (sg t) :: inserts l).
  cbn [clean_from clean_op spec_step]. split; [by rewrite lookup_fmap, Hf|].
  rewrite decide_True by apply sg_ok. rewrite <- fmap_insert. by apply IH.
Qed.

Lemma clean_run ops : fresh toks ops -> clean n (concat (trans <$> ops)).
Proof.
  unfold fresh, clean. rewrite <- (fmap_empty sg). generalize (∅ : gmap Z (list token)) as c.
  induction ops as [|o ops IH]; intros c; [done|]. cbn [fresh_from]. intros [Hf Hr].
  cbn [fmap list_fmap concat]. rewrite clean_app. split.
  - destruct o as [id doc|id ts|id|s1 s2 ids docs|ids tss|s1 s2 ids tss]; cbn [trans]; [..|].
    3:{ done. }
    all: destruct (batch_raises _ _) eqn:E; [done|by apply clean_inserts, Hf].
  - assert (E : fold_left (spec_step n) (trans o) (sg <$> c) = sg <$> content_step toks c o).
    { clear -lower. revert c. destruct o; cbn [trans content_step]; intros c.
      3:{ cbn. by rewrite fmap_delete. }
      all: destruct (batch_raises _ _); [done|];
        match goal with |- fold_left _ (inserts ?l) _ = _ => generalize l as l0 end; intros l0;
        revert c; induction l0 as [|[id' [t|]] l0 IH]; intros c; [done| |done];
        cbn [put inserts ok_pairs fmap list_fmap fold_left spec_step fst snd];
        rewrite decide_True by apply sg_ok; rewrite <- fmap_insert; apply IH. }
    rewrite E. by apply IH.
Qed.
End PyIndex.
