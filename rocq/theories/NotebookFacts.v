(** Proofs about the deduplication notebook. *)
From stdpp Require Import base list gmap strings.
From Coq Require Import NArith ZArith Reals Lra Lia.
From Verif Require Import Base Float FloatFacts F64Facts Container SpecIndex SimilarityFacts
  MinHashIndexFacts2 SimilarityThms JaccardFacts
  MinHasher Text StringIndex PyTokenizer PyMinHash SpecPy SpecPyClass PyFacts PropsPy PropsPy2
  Notebook SpecNotebook.
Local Open Scope nat_scope.

Lemma list_remove_spec x l :
  (x ∉ l -> list_remove x l = None) /\
  (x ∈ l -> exists l1 l2, l = l1 ++ x :: l2 /\ x ∉ l1 /\ list_remove x l = Some (l1 ++ l2)).
Proof.
  induction l as [|y l [IH1 IH2]]; [split; [done|]; by intros ?%elem_of_nil|].
  cbn. destruct (decide (x = y)) as [->|Hne].
  - split; [set_solver|]. intros _. exists [], l. split; [done|]. split; [set_solver|done].
  - split.
    + intros H. rewrite IH1 by set_solver. done.
    + intros [?|H]%elem_of_cons; [done|]. destruct (IH2 H) as (l1 & l2 & -> & Hn & ->).
      exists (y :: l1), l2. split; [done|]. split; [set_solver|done].
Qed.

Lemma list_remove_nodup x l : NoDup l -> x ∈ l ->
  exists l', list_remove x l = Some l' /\ NoDup l' /\ forall y, y ∈ l' <-> y ∈ l /\ y <> x.
Proof.
  intros Hn Hx. destruct (list_remove_spec x l) as [_ H]. destruct (H Hx) as (l1 & l2 & -> & H1 & ->).
  apply NoDup_app in Hn as (N1 & N2 & [N3 N4]%NoDup_cons).
  exists (l1 ++ l2). split; [done|]. split.
  - apply NoDup_app. split; [done|]. split; [set_solver|done].
  - intros y. rewrite !elem_of_app, elem_of_cons. split.
    + intros [Hy|Hy]; (split; [tauto|]); intros ->; contradiction.
    + tauto.
Qed.

Lemma fmap_somes {A B : Type} (f : A -> option B) l k :
  Forall2 (fun d t => f d = Some t) l k -> f <$> l = Some <$> k.
Proof. induction 1 as [|d t l k Hd _ IH]; [done|]. rewrite !fmap_cons. by rewrite Hd, IH. Qed.

Section Put.
Implicit Types (c : gmap Z (list token)) (ids : list Z) (ts : list (list token)).

Lemma put_lookup ids ts c j : NoDup ids -> length ids = length ts -> (forall id, id ∈ ids -> c !! id = None) ->
  forall t, put c (zip ids (Some <$> ts)) !! j = Some t <->
    (exists k, ids !! k = Some j /\ ts !! k = Some t) \/ c !! j = Some t.
Proof.
  revert ts c. induction ids as [|id ids IH]; intros [|t ts] c Hn Hl Hc t'; try done; cbn [zip zip_with fmap list_fmap put].
  - split; [by right|]. by intros [(k & H & _)|H].
  - apply NoDup_cons in Hn as [Hid Hn]. fold (zip ids (Some <$> ts)). rewrite IH; [|done|by injection Hl| ].
    2:{ intros id' Hid'. rewrite lookup_insert_ne by (intros ->; contradiction). apply Hc. by right. }
    rewrite lookup_insert_Some. split.
    + intros [(k & H1 & H2)|[[<- <-]|[_ H]]].
      * left. by exists (S k).
      * left. by exists 0.
      * by right.
    + intros [([|k] & H1 & H2)|H].
      * cbn in H1, H2. injection H1 as <-. injection H2 as <-. right. by left.
      * left. by exists k.
      * right. right. split; [|done]. intros ->. rewrite Hc in H; [done|]. by left.
Qed.

Lemma fresh_put_zip ids ts c : NoDup ids -> (forall id, id ∈ ids -> c !! id = None) ->
  fresh_put c (zip ids (Some <$> ts)).
Proof.
  revert ts c. induction ids as [|id ids IH]; intros [|t ts] c Hn Hc; try done; cbn [zip zip_with fmap list_fmap fresh_put].
  apply NoDup_cons in Hn as [Hid Hn]. split; [apply Hc; by left|]. apply IH; [done|].
  intros id' Hid'. rewrite lookup_insert_ne by (intros ->; contradiction). apply Hc. by right.
Qed.

Lemma missing_some ids ts : missing (zip ids (Some <$> ts)).*2 = false /\ missing (Some <$> ts) = false.
Proof.
  split; [|by induction ts]. revert ts. induction ids as [|id ids IH]; intros [|t ts]; try done. apply IH.
Qed.
End Put.

Section Dedup.
Context (lower : text -> text)
        (shingles_str : list N -> nat -> option (list (list N)))
        (shingles_words : list (list N) -> nat -> option (list (list (list N)))).
Context (hash : token -> N) (draws : N -> nat -> nat -> N) (bh : list N -> N).
Context (ck : container_kind) (hk : hasher_kind).
Context (order : gset Z -> list Z).
Context (nb bw : nat) (th : f64).
Context (an : analyzer) (lc : option bool) (range : option (nat * nat)).
Notation name := (match an with Callable _ => "word"%string | Named s => s end).
Notation new := (ClassIndex ck hk (py_make draws ck th nb bw (Some name) lc range) an).
Notation native s := (doc_tokens lower shingles_str shingles_words (tokenizer_new s range) (default false lc)).
Notation toks := (class_tokens (fun s => native s) an).
Notation sg := (sig_tokens hk hash draws (nb * bw)).
Notation dedup := (deduplicate lower shingles_str shingles_words hash bh order).

Lemma sg_length t : length (sg t) = nb * bw.
Proof. apply (sg_ok hash draws hk nb bw). Qed.

Lemma alike_refl t : 0 < nb -> 0 < bw -> (N.of_nat (nb * bw) <= 2 ^ 53)%N -> f64_ge f64_one th = true ->
  alike nb bw bh th (sg t) (sg t).
Proof.
  intros Hnb Hbw Hsz Hth. split; [|by exists 0].
  rewrite sim_refl; [done| |]; rewrite sg_length; [nia|done].
Qed.

Lemma alike_sym t t' : alike nb bw bh th (sg t) (sg t') <-> alike nb bw bh th (sg t') (sg t).
Proof.
  enough (Hs : forall t t', alike nb bw bh th (sg t) (sg t') -> alike nb bw bh th (sg t') (sg t)) by (split; apply Hs).
  clear t t'. intros t t' [H (i & Hi & E)]. split; [|by exists i].
  rewrite sim_comm; [exact H|]. etransitivity; [apply sg_length|symmetry; apply sg_length].
Qed.

Context (ids : list Z) (docs : list text) (ts : list (list token)).
Context (Ho : is_order order) (Hids : NoDup ids) (Hlen : length ids = length docs)
        (Hts : Forall2 (fun d t => toks d = Some t) docs ts).

Lemma toks_docs : toks <$> docs = Some <$> ts.
Proof. by apply fmap_somes. Qed.

Lemma ids_ts : length ids = length ts.
Proof. rewrite Hlen. by eapply Forall2_length. Qed.

Section Step.
Context (s1 s2 : list nat).
Notation op := (CParBulkInsertDocs s1 s2 ids docs).
Notation full := (class_run lower shingles_str shingles_words hash bh new [op]).

Lemma batch_fine : cbatch_raises toks op = false.
Proof. cbn. rewrite toks_docs. rewrite (proj2 (missing_some ids ts)). by rewrite andb_false_r. Qed.

Lemma step_fine : class_step lower shingles_str shingles_words hash bh new op = (full, false).
Proof.
  pose proof (C57_class_raises lower shingles_str shingles_words hash draws bh ck hk nb bw th an lc range [] op) as H.
  change (class_run lower shingles_str shingles_words hash bh new []) with new in H.
  unfold craises in H. rewrite batch_fine in H. cbn [casked] in H. rewrite toks_docs in H.
  rewrite (proj1 (missing_some ids ts)) in H. cbn [orb] in H.
  unfold class_run. cbn [fold_left]. destruct (class_step _ _ _ _ _ _ _) as [m b]. cbn in *. by subst b.
Qed.

Lemma full_content j t : ccontent toks [op] !! j = Some t <-> exists k, ids !! k = Some j /\ ts !! k = Some t.
Proof.
  unfold ccontent. cbn [fold_left ccontent_step]. rewrite batch_fine. cbn [casked]. rewrite toks_docs.
  rewrite put_lookup; [|done|apply ids_ts|done]. rewrite lookup_empty. split; [intros [H|H]; done|by left].
Qed.

Lemma full_fresh : cfresh toks [op].
Proof.
  split; [|done]. intros _. cbn [casked]. rewrite toks_docs. by apply fresh_put_zip.
Qed.

(** The answer for row [i] before its own id is removed. *)
Lemma answer i d t : docs !! i = Some d -> ts !! i = Some t ->
  exists l, class_query lower shingles_str shingles_words hash bh order full d = Some l /\ NoDup l /\
    forall j, j ∈ l <-> exists k t', ids !! k = Some j /\ ts !! k = Some t' /\ alike nb bw bh th (sg t) (sg t').
Proof.
  intros Hd Ht. pose proof (Forall2_lookup_lr _ _ _ _ _ _ Hts Hd Ht) as Hdt. cbn in Hdt.
  destruct (C57_class_exact lower shingles_str shingles_words hash draws bh ck hk order nb bw th an lc range
    [op] d t Ho full_fresh Hdt) as (l & Hl & Hin).
  exists l. split; [exact Hl|]. split.
  { exact (proj1 (C57_class_sound lower shingles_str shingles_words hash draws bh ck hk order nb bw th an lc range
    [op] d l Ho Hl)). }
  intros j. rewrite Hin. unfold expected_answer. split.
  - intros (s & Hs & Hge & Hb). rewrite lookup_fmap in Hs. destruct (ccontent toks [op] !! j) as [t'|] eqn:Hc; [|done].
    cbn in Hs. injection Hs as <-. apply full_content in Hc as (k & Hk & Hk'). exists k, t'.
    split; [done|]. split; [done|]. by apply alike_sym.
  - intros (k & t' & Hk & Hk' & Ha). exists (sg t'). split.
    + rewrite lookup_fmap. by rewrite (proj2 (full_content j t') ltac:(eauto)).
    + by apply alike_sym in Ha.
Qed.
End Step.

Lemma deduplicate_rows s1 s2 s3 s4 :
  0 < nb -> 0 < bw -> (N.of_nat (nb * bw) <= 2 ^ 53)%N -> f64_ge f64_one th = true ->
  exists rows, dedup s1 s2 s3 s4 new ids docs = Some rows /\ length rows = length ids /\
    forall i row, rows !! i = Some row -> row_of nb bw bh th ids (sg <$> ts) i row.
Proof.
  intros Hnb Hbw Hsz Hth. unfold deduplicate. rewrite step_fine. cbn [fst snd].
  rewrite (proj1 (C57_class_bulk lower shingles_str shingles_words hash bh order (fun l => l) _ s3 s4 docs)).
  set (full := class_run _ _ _ _ _ _ _).
  assert (HQ : exists answers, mapM (class_query lower shingles_str shingles_words hash bh order full) docs = Some answers /\
    length answers = length docs /\
    forall i l, answers !! i = Some l -> NoDup l /\ exists t, ts !! i = Some t /\
    forall j, j ∈ l <-> exists k t', ids !! k = Some j /\ ts !! k = Some t' /\ alike nb bw bh th (sg t) (sg t')).
  { destruct (mapM _ docs) as [answers|] eqn:E.
    - exists answers. apply mapM_Some in E. pose proof (Forall2_length _ _ _ E). split; [done|]. split; [done|].
      intros i l Hi. destruct (Forall2_lookup_r _ _ _ _ _ E Hi) as (d & Hd & Hq).
      destruct (Forall2_lookup_l _ _ _ _ _ Hts Hd) as (t & Ht & _).
      destruct (answer s1 s2 i d t Hd Ht) as (l' & Hl' & Hn & Hin).
      fold full in Hl'. rewrite Hl' in Hq. injection Hq as <-. split; [done|]. by exists t.
    - exfalso. apply mapM_None, Exists_exists in E as (d & Hd & E). apply elem_of_list_lookup in Hd as [i Hd].
      destruct (Forall2_lookup_l _ _ _ _ _ Hts Hd) as (t & Ht & _).
      destruct (answer s1 s2 i d t Hd Ht) as (l' & Hl' & _). fold full in Hl'. by rewrite Hl' in E. }
  destruct HQ as (answers & -> & Hla & Hans). cbn [mbind option_bind]. unfold remove_self.
  assert (HR : forall i id l, ids !! i = Some id -> answers !! i = Some l ->
    exists row, list_remove id l = Some row /\ row_of nb bw bh th ids (sg <$> ts) i row).
  { intros i id l Hi Hl. destruct (Hans i l Hl) as (Hn & t & Ht & Hin).
    destruct (list_remove_nodup id l Hn) as (row & Hr & Hnr & Hrin).
    - apply Hin. exists i, t. split; [done|]. split; [done|]. by apply alike_refl.
    - exists row. split; [done|]. split; [done|]. intros j. rewrite Hrin, Hin. split.
      + intros [(k & t' & Hk & Hk' & Ha) Hj]. exists k, (sg t), (sg t').
        rewrite !list_lookup_fmap, Ht, Hk'. split_and!; try done. intros ->. apply Hj. congruence.
      + intros (k & s & s' & Hki & Hk & Hs & Hs' & Ha). rewrite !list_lookup_fmap in *.
        rewrite Ht in Hs. cbn in Hs. injection Hs as <-.
        destruct (ts !! k) as [t'|] eqn:Hk'; [|done]. cbn in Hs'. injection Hs' as <-. split; [by exists k, t'|].
        intros ->. apply Hki. exact (NoDup_lookup ids k i _ Hids Hk Hi). }
  destruct (mapM _ (zip ids answers)) as [rows|] eqn:E.
  - exists rows. split; [done|]. apply mapM_Some in E. pose proof (Forall2_length _ _ _ E) as HL.
    rewrite zip_with_length in HL. split; [lia|].
    intros i row Hi. destruct (Forall2_lookup_r _ _ _ _ _ E Hi) as ([id l] & Hz & Hr).
    apply lookup_zip_with_Some in Hz as (id' & l' & [= <- <-] & H1 & H2).
    destruct (HR i id l H1 H2) as (row' & Hr' & Hrow). cbn in Hr. rewrite Hr' in Hr. by injection Hr as <-.
  - exfalso. apply mapM_None, Exists_exists in E as ([id l] & Hz & E). apply elem_of_list_lookup in Hz as [i Hz].
    apply lookup_zip_with_Some in Hz as (id' & l' & [= <- <-] & H1 & H2).
    destruct (HR i id l H1 H2) as (row' & Hr' & _). cbn in E. by rewrite Hr' in E.
Qed.
End Dedup.

(** ** The metrics *)
Lemma size_ratio_spec (a b : gset Z) : a ⊆ b -> b <> ∅ -> (N.of_nat (size b) <= 2 ^ 53)%N ->
  f64_ge (size_ratio a b) (f64_of_N 0) = true /\ f64_ge f64_one (size_ratio a b) = true /\
  (size_ratio a b = f64_one <-> a = b).
Proof.
  intros Hab Hb Hsz.
  assert (Hpos : 0 < size b).
  { destruct (decide (size b = 0)) as [E|]; [|lia]. apply size_zero_iff in E. contradiction. }
  pose proof (subseteq_size a b Hab) as Hle. unfold size_ratio.
  pose proof (ratio64_good (N.of_nat (size a)) (N.of_nat (size b)) ltac:(lia) ltac:(lia)) as Hg.
  pose proof (ratio64_bounds (N.of_nat (size a)) (N.of_nat (size b)) ltac:(lia) ltac:(lia)) as Hbd.
  split; [|split].
  - unfold f64_ge. pose proof (of_N_good 0 ltac:(lia)) as H0. rewrite (good_leb 53 1024 _ _ _ _ H0 Hg).
     apply Hbd.
  - unfold f64_ge. rewrite (good_leb 53 1024 _ _ _ _ Hg one_good).  apply Hbd.
  - split.
    + intros E. apply set_eq_subseteq. split; [done|].
      destruct (decide (size a = size b)) as [Es|Hne].
      { intros x Hx. destruct (decide (x ∈ a)) as [|Hx']; [done|exfalso].
        assert (Hs : {[x]} ∪ a ⊆ b) by set_solver. apply subseteq_size in Hs.
        rewrite size_union, size_singleton in Hs by set_solver. lia. }
      exfalso. pose proof (ratio64_lt_one (N.of_nat (size a)) (N.of_nat (size b)) ltac:(lia) ltac:(lia)) as Hlt.
      destruct Hg as (_ & _ & Hr). rewrite E in Hr. pose proof one_good as (_ & _ & H1). rewrite H1 in Hr. lra.
    + intros ->. pose proof (ratio64_one (N.of_nat (size b)) ltac:(lia)) as H1. rewrite H1 in Hg.
      eapply good64_inj; [|exact Hg|exact one_good]. lra.
Qed.
