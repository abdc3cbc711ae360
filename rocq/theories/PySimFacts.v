(** Proofs about the Python classes: the simhash index. *)
From stdpp Require Import base list gmap strings.
From Coq Require Import NArith ZArith.
From Verif Require Import Base Par ParFacts SimHashBits Permutation PermutationFacts SimHash SimHashFacts SimHashIndex
  SpecSimHash SpecIndex SimHashIndexFacts Text StringIndex PyTokenizer PyMinHash PySimHash SpecPy PyFacts.
Local Open Scope nat_scope.

Section PySim.
Context (lower : text -> text)
        (shingles_str : list N -> nat -> option (list (list N)))
        (shingles_words : list (list N) -> nat -> option (list (list (list N)))).
Context (W : nat) (hash : token -> N).
Notation sg := (ssig_tokens W hash).
Notation toks m := (doc_tokens lower shingles_str shingles_words (ps_tokenizer m) (ps_lowercase m)).
Notation step := (ps_step lower shingles_str shingles_words W hash).
Notation prun := (ps_run lower shingles_str shingles_words W hash).

Lemma ssg_ok (t : list token) : create_signature W W hash t = Some (sg t) /\ (sg t < 2 ^ N.of_nat W)%N.
Proof.
  unfold ssig_tokens. destruct (create_signature_spec W W hash t) as (r & E & Hr & _); [done|].
  by rewrite E.
Qed.

Lemma sdoc_sig m doc : doc2signature lower shingles_str shingles_words W hash m doc = sg <$> toks m doc.
Proof. unfold doc2signature. destruct (toks m doc) as [t|]; [|done]. cbn. apply ssg_ok. Qed.

Lemma stokens_sig ts : tokens2signature W hash ts = Some (sg (map as_str ts)).
Proof. apply ssg_ok. Qed.

(** The pairs a call stores. *)
Definition spairs m (o : py_sop) : list (Z * N) :=
  if sbatch_raises (toks m) o then []
  else (fun p => (p.1, sg p.2)) <$> ok_pairs (sasked (toks m) o).

Lemma sloop_eq l m :
  ps_loop lower shingles_str shingles_words W hash l m =
  (ps_with m (sinserts ((fun p => (p.1, sg p.2)) <$> ok_pairs ((fun p => (p.1, toks m p.2)) <$> l)) (ps_inner m)),
   missing ((fun p => (p.1, toks m p.2)) <$> l).*2).
Proof.
  revert m. induction l as [|[id doc] l IH]; intros m.
  - cbn. by destruct m.
  - cbn [ps_loop]. unfold ps_insert_document. cbn [fst snd]. rewrite sdoc_sig. cbn [fmap list_fmap fst snd].
    destruct (toks m doc) as [t|]; cbn [fmap option_fmap option_map ps_insert_sig fst snd].
    + rewrite IH. done.
    + cbn. by destruct m.
Qed.

Lemma sok_all (ids : list Z) (ts : list (list token)) :
  (fun p => (p.1, sg p.2)) <$> ok_pairs (zip ids (Some <$> ts)) = zip ids (sg <$> ts).
Proof. revert ts. induction ids as [|id ids IH]; intros [|t ts]; [done..|]. cbn. f_equal. apply IH. Qed.

Lemma sstep_eq m o : step m o = (ps_with m (sinserts (spairs m o) (ps_inner m)), sraises (toks m) o).
Proof.
  unfold spairs, sraises.
  destruct o as [id doc|id ts|s1 s2 ids tss|s1 s2 ids docs]; cbn [ps_step sbatch_raises sasked].
  - unfold ps_insert_document. rewrite sdoc_sig. destruct (toks m doc) as [t|]; cbn; [done|by destruct m].
  - unfold ps_insert_tokens. by rewrite stokens_sig.
  - unfold ps_par_bulk_insert_tokens, par_bulk_tokens2signatures. rewrite par_map_mapM.
    assert (E : mapM (tokens2signature W hash) tss = Some (sg <$> (map as_str <$> tss))).
    { induction tss as [|ts tss IH]; [done|]. cbn [mapM]. rewrite stokens_sig. cbn. by rewrite IH. }
    rewrite E. cbn [ps_insert_sigs]. rewrite spar_bulk_insert_eq.
    change ((fun t => Some (map as_str t)) <$> tss) with ((Some ∘ map as_str) <$> tss).
    rewrite list_fmap_compose, missing_all, sok_all. done.
  - unfold ps_par_bulk_insert_docs. destruct (length ids <? 100) eqn:El.
    + apply Nat.ltb_lt in El. rewrite (proj2 (Nat.leb_gt 100 (length ids))) by lia. cbn [andb].
      rewrite orb_false_r, sloop_eq.
      assert (E : (fun p => (p.1, toks m p.2)) <$> zip ids docs = zip ids (toks m <$> docs)).
      { clear. revert docs. induction ids as [|id ids IH]; intros [|d docs]; [done..|]. cbn. f_equal. apply IH. }
      by rewrite E.
    + apply Nat.ltb_ge in El. rewrite (proj2 (Nat.leb_le 100 (length ids))) by lia. cbn [andb].
      unfold par_bulk_doc2signatures. rewrite par_map_mapM.
      rewrite (mapM_ext _ (fun doc => sg <$> toks m doc)) by (intros; apply sdoc_sig).
      rewrite mapM_fmap_Some.
      destruct (missing_mapM (toks m) docs) as [[-> ->]|(ts & -> & -> & Ets)]; cbn [fmap option_fmap option_map].
      * cbn. rewrite orb_true_r. by destruct m.
      * cbn [ps_insert_sigs]. rewrite spar_bulk_insert_eq, Ets, missing_all, sok_all. done.
Qed.

Lemma sstep_conf m o : ps_tokenizer (step m o).1 = ps_tokenizer m /\ ps_lowercase (step m o).1 = ps_lowercase m.
Proof. rewrite sstep_eq. done. Qed.

Lemma srun_eq m ops : prun m ops = ps_with m (sinserts (concat (spairs m <$> ops)) (ps_inner m)).
Proof.
  unfold ps_run. revert m. induction ops as [|o ops IH]; intros m; cbn [fold_left].
  - by destruct m.
  - rewrite sstep_eq. cbn [fst]. rewrite IH. unfold ps_with. cbn [ps_inner ps_tokenizer ps_lowercase].
    f_equal. cbn [fmap list_fmap concat]. unfold sinserts. rewrite foldl_app. done.
Qed.

Lemma spairs_content m c o :
  foldl (fun sg p => <[p.1 := p.2]> sg) (sg <$> c) (spairs m o) = sg <$> scontent_step (toks m) c o.
Proof.
  unfold spairs, scontent_step. destruct (sbatch_raises _ _); [done|].
  generalize (sasked (toks m) o) as l. intros l. revert c.
  induction l as [|[id [t|]] l IH]; intros c; [done| |done].
  cbn [ok_pairs fmap list_fmap foldl put fst snd]. rewrite <- fmap_insert. apply IH.
Qed.

Lemma srun_content m ops :
  foldl (fun sg p => <[p.1 := p.2]> sg) ∅ (concat (spairs m <$> ops)) = sg <$> scontent (toks m) ops.
Proof.
  induction ops as [|o ops IH] using rev_ind.
  { change (scontent (toks m) []) with (∅ : gmap Z (list token)). by rewrite fmap_empty. }
  rewrite fmap_app, concat_app, foldl_app, IH. cbn [fmap list_fmap concat]. rewrite app_nil_r.
  unfold scontent. rewrite fold_left_app. cbn [fold_left]. apply spairs_content.
Qed.

Lemma spairs_fit m ops : Forall (fun p => p.2 < 2 ^ N.of_nat W)%N (concat (spairs m <$> ops)).
Proof.
  apply Forall_concat, Forall_fmap, Forall_forall. intros o _. cbn. unfold spairs.
  destruct (sbatch_raises _ _); [done|]. apply Forall_fmap, Forall_forall. intros p _. apply ssg_ok.
Qed.

Lemma srun_inv nb d name lc range m ops : 1 < W ->
  ps_new W nb d name lc range = Some m ->
  d <= nb <= W /\
  sinv W nb d (sg <$> scontent (toks m) ops) (ps_inner (prun m ops)).
Proof.
  intros HW Hm. unfold ps_new in Hm.
  assert (Hd : d <= nb <= W).
  { destruct (decide (nb < d)) as [Hlt|]; [|destruct (decide (W < nb)) as [Hlt|]; [|lia]].
    - unfold sindex_new in Hm. by rewrite perm_create_underflow in Hm.
    - unfold sindex_new in Hm. by rewrite perm_create_too_many in Hm. }
  split; [done|]. destruct (sindex_new_inv (Id := Z) W nb d HW Hd) as (m0 & E & Hinv).
  rewrite E in Hm. cbn in Hm. injection Hm as Hm.
  rewrite srun_eq. cbn [ps_inner ps_with]. rewrite <- srun_content, insert_all_union.
  apply sinserts_inv; [apply spairs_fit|]. by rewrite <- Hm.
Qed.
End PySim.
