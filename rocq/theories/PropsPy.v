(** Property theorems C52, C53, C54, C57, C58: the Python classes. *)
From stdpp Require Import base list gmap strings.
From Coq Require Import NArith ZArith.
From Verif Require Import Base Par ParFacts Float Container ContainerFacts MinHashIndex SpecIndex SimilarityFacts
  MinHashIndexFacts MinHashIndexFacts2 MinHashIndexFacts3 MinHashIndexThms MinHasher Params ParamsFacts
  Text SpecText StringIndex SpecSimHash SimHashIndex SimHashIndexFacts Permutation PermutationFacts
  PyTokenizer PyMinHash PySimHash SpecPy PyFacts PySimFacts.
Local Open Scope nat_scope.

(** ** Concrete data for the examples *)
Definition ex_lower (t : text) : text :=
  (fun c => if ((65 <=? c) && (c <=? 90))%N then (c + 32)%N else c) <$> t.
Definition ex_shingles {A} (l : list A) (n : nat) : option (list (list A)) :=
  if (n =? 0)%nat then None else Some ((fun p => window l p n) <$> seq 0 (length l + 1 - n)).
Definition ex_bytes (bs : list N) : N := foldl (fun h b => (h * 31 + b) mod 4294967296)%N 7%N bs.
Definition ex_token (t : token) : N :=
  match t with
  | TStr bs => ex_bytes bs
  | TWords ws => foldl (fun h w => (h * 131 + ex_bytes w) mod 4294967296)%N 5%N ws
  end.
Definition ex_draws (seed : N) (n j : nat) : N :=
  ((N.of_nat j * 7919 + 12345) * 104729 mod 2147483647)%N.
Definition ex_bh (l : list N) : N := foldl (fun h x => h * 4294967296 + x)%N 1%N l.
Definition ex_powf (x y : f64) : f64 := x.
Definition half : f64 := f64_div f64_one (f64_of_N 2).
(** "the cat sat on the mat", "The cat sat on a mat", "dogs!" *)
Definition doc_a : text := [116;104;101;32;99;97;116;32;115;97;116;32;111;110;32;116;104;101;32;109;97;116]%N.
Definition doc_b : text := [84;104;101;32;99;97;116;32;115;97;116;32;111;110;32;97;32;109;97;116]%N.
Definition doc_c : text := [100;111;103;115;33]%N.

Section MinHash.
Context (lower : text -> text)
        (shingles_str : list N -> nat -> option (list (list N)))
        (shingles_words : list (list N) -> nat -> option (list (list (list N)))).
Context (powf : f64 -> f64 -> f64).
Context (hash : token -> N) (draws : N -> nat -> nat -> N) (bh : list N -> N).
Context (ck : container_kind) (hk : hasher_kind).
Context (order : gset Z -> list Z) (sort : list (Z * f64) -> list (Z * f64)).
Context (nb bw : nat) (th : f64) (an : option string) (lc : option bool) (range : option (nat * nat)).
Notation tokens :=
  (doc_tokens lower shingles_str shingles_words (tokenizer_new (default "word"%string an) range) (default false lc)).
Notation new := (py_make draws ck th nb bw an lc range).
Notation step := (py_step lower shingles_str shingles_words hash bh ck hk).
Notation prun := (py_run lower shingles_str shingles_words hash bh ck hk).
Notation sg := (sig_tokens hk hash draws (nb * bw)).
Notation at_ops := (at_ops draws bh ck nb bw th (tokenizer_new (default "word"%string an) range) (default false lc)).
Notation trans := (trans lower shingles_str shingles_words hash draws hk nb bw
  (tokenizer_new (default "word"%string an) range) (default false lc)).

Lemma new_at : new = at_ops [].
Proof. done. Qed.

Lemma run_new ops : prun new ops = at_ops (concat (trans <$> ops)).
Proof. rewrite new_at, run_at. done. Qed.

(** ** C52 *)
Theorem C52_minhash_docs (ops : list py_op) (s1 s2 : list nat) (ids : list Z) (docs : list text) :
  (forall doc, doc ∈ docs -> is_Some (tokens doc)) ->
  step (prun new ops) (ParBulkInsertDocs s1 s2 ids docs) =
  (prun new (ops ++ zip_with InsertDocument ids docs), false).
Proof.
  intros Hd. rewrite !run_new, step_at.
  assert (exists ts, tokens <$> docs = Some <$> ts) as [ts Ets].
  { induction docs as [|d docs IH]; [by exists []|].
    destruct (Hd d) as [t Ht]; [by left|]. destruct IH as [ts E]; [intros; apply Hd; by right|].
    exists (t :: ts). cbn. by rewrite Ht, E. }
  assert (Hm : missing (tokens <$> docs) = false).
  { rewrite Ets. clear. by induction ts. }
  f_equal.
  - rewrite fmap_app, concat_app. f_equal. f_equal. cbn [PyFacts.trans batch_raises asked].
    rewrite Hm, andb_false_r. rewrite Ets, inserts_all.
    clear Hd Hm. revert docs ts Ets. induction ids as [|id ids IH]; intros [|d docs] [|t ts] E; try done.
    cbn in E. injection E as Et E. cbn [zip_with fmap list_fmap concat].
    rewrite <- (IH docs ts E). cbn [PyFacts.trans batch_raises asked]. by rewrite Et.
  - unfold raises. cbn [asked batch_raises]. rewrite Hm, andb_false_r, Ets, missing_all. done.
Qed.

Theorem C52_minhash_tokens (ops : list py_op) (s1 s2 : list nat) (ids : list Z) (tss : list (list text)) :
  step (prun new ops) (BulkInsertTokens ids tss) =
    (prun new (ops ++ zip_with InsertTokens ids tss), false) /\
  step (prun new ops) (ParBulkInsertTokens s1 s2 ids tss) =
    (prun new (ops ++ zip_with InsertTokens ids tss), false).
Proof.
  rewrite !run_new, !step_at. unfold raises. cbn [PyFacts.trans asked batch_raises]. rewrite !orb_false_r.
  change ((fun t => Some (map as_str t)) <$> tss) with ((Some ∘ map as_str) <$> tss).
  rewrite list_fmap_compose, missing_all, inserts_all.
  assert (E : (fun p => Insert p.1 (sg p.2)) <$> zip ids (map as_str <$> tss) =
              concat (trans <$> zip_with InsertTokens ids tss)).
  { revert tss. induction ids as [|id ids IH]; intros [|ts tss]; [done..|]. cbn. f_equal. apply IH. }
  rewrite E, fmap_app, concat_app. done.
Qed.

Theorem C52_minhash_found (ops : list py_op) (id : Z) (doc : text) (t : list token) :
  is_order order -> 0 < nb -> 0 < bw -> (N.of_nat (nb * bw) <= 2 ^ 53)%N -> f64_ge f64_one th = true ->
  tokens doc = Some t -> content tokens ops !! id = Some t ->
  exists l, py_query lower shingles_str shingles_words hash bh ck hk order (prun new ops) doc = Some l /\ id ∈ l.
Proof.
  intros Ho Hnb Hbw Hsz Hth Ht Hc. rewrite run_new. unfold py_query. rewrite doc_sig, Ht. cbn.
  unfold py_query_sig. cbn [PyFacts.at_ops py_inner].
  destruct (self_query ck bh nb bw th (concat (trans <$> ops)) id (sg t)) as (S & HS & Hin); try done.
  - apply well_sized_run.
  - by rewrite spec_run, lookup_fmap, Hc.
  - rewrite query_owned_query, HS. cbn. eexists. split; [done|]. by rewrite (Ho S), elem_of_elements.
Qed.

(** ** C53: calls on a constructed object *)
Theorem C53_lengths (ops : list py_op) (doc : text) (ts : list text) (s : list N) :
  (py_doc_signature lower shingles_str shingles_words hash ck hk (prun new ops) doc = Some s \/
   py_tokens_signature hash ck hk (prun new ops) ts = Some s) ->
  length s = MinHashIndex.num_hashes (py_inner (prun new ops)).
Proof.
  rewrite run_new. rewrite doc_sig, tokens_sig. cbn [PyFacts.at_ops py_inner].
  rewrite (inv_n _ _ _ _ _ _ _ (after_inv ck bh nb bw th _)).
  intros [H|H]; [destruct (tokens doc); [|done]; cbn in H|]; injection H as <-; apply sg_ok.
Qed.

Theorem C53_raises (ops : list py_op) (o : py_op) : (step (prun new ops) o).2 = raises tokens o.
Proof. rewrite run_new, step_at. done. Qed.

Theorem C53_no_range_never_raises (ops : list py_op) (o : py_op) :
  match range with Some r => r.1 ≠ r.2 | None => True end -> (step (prun new ops) o).2 = false.
Proof.
  intros Hr. rewrite C53_raises.
  assert (Hm : forall docs, missing (tokens <$> docs) = false).
  { induction docs as [|d docs IH]; [done|]. cbn.
    destruct (tokens_total lower shingles_str shingles_words (default "word"%string an) range (default false lc) d Hr) as [t ->].
    done. }
  assert (Hs : forall (ids : list Z) (tss : list (list text)), missing (zip ids ((fun t => Some (map as_str t)) <$> tss)).*2 = false).
  { intros ids tss. apply missing_zip. by induction tss. }
  destruct o as [id doc|id ts|id|s1 s2 ids docs|ids tss|s1 s2 ids tss]; unfold raises; cbn [asked batch_raises].
  - rewrite orb_false_r. exact (Hm [doc]).
  - done.
  - done.
  - rewrite Hm, andb_false_r, orb_false_r. apply missing_zip, Hm.
  - by rewrite Hs.
  - by rewrite Hs.
Qed.

Theorem C53_queries (ops : list py_op) (doc : text) (ts : list text) :
  (is_Some (tokens doc) ->
   is_Some (py_query lower shingles_str shingles_words hash bh ck hk order (prun new ops) doc)) /\
  is_Some (py_query_tokens hash bh ck hk order (prun new ops) ts).
Proof.
  rewrite run_new.
  assert (Hq : forall t, is_Some (py_query_sig bh ck order (at_ops (concat (trans <$> ops))) (sg t))).
  { intros t. unfold py_query_sig. cbn [PyFacts.at_ops py_inner]. rewrite query_owned_query.
    destruct (recall ck bh nb bw th (concat (trans <$> ops)) (sg t)) as (S & -> & _); [apply well_sized_run|apply sg_ok|].
    cbn. eauto. }
  split.
  - intros [t Ht]. unfold py_query. rewrite doc_sig, Ht. cbn. apply Hq.
  - unfold py_query_tokens. rewrite tokens_sig. cbn. apply Hq.
Qed.

(** ** C57: what the answers are *)
Theorem C57_size (ops : list py_op) : py_size ck (prun new ops) = size (content tokens ops).
Proof.
  rewrite run_new. unfold py_size, index_size. cbn [PyFacts.at_ops py_inner].
  rewrite sigs_after, spec_run. apply map_size_fmap.
Qed.

Theorem C57_sound (ops : list py_op) (doc : text) (l : list Z) : is_order order ->
  py_query lower shingles_str shingles_words hash bh ck hk order (prun new ops) doc = Some l ->
  NoDup l /\ exists t, tokens doc = Some t /\
    forall id, id ∈ l -> exists t', content tokens ops !! id = Some t' /\ f64_ge (sim (sg t') (sg t)) th = true.
Proof.
  intros Ho. rewrite run_new. unfold py_query. rewrite doc_sig. destruct (tokens doc) as [t|]; [|done]. cbn.
  unfold py_query_sig. cbn [PyFacts.at_ops py_inner]. rewrite query_owned_query.
  destruct (query _ _ _ _) as [S|] eqn:Eq; [|done]. cbn. intros [= <-]. split.
  { rewrite (Ho S). apply NoDup_elements. }
  exists t. split; [done|]. intros id Hid. rewrite (Ho S), elem_of_elements in Hid.
  destruct (query_sound _ bh nb bw th _ _ _ _ id (after_inv ck bh nb bw th (concat (trans <$> ops))) Eq Hid)
    as (s & Hs & _ & Hge).
  rewrite spec_run, lookup_fmap in Hs. destruct (content tokens ops !! id) as [t'|]; [|done].
  cbn in Hs. injection Hs as <-. eauto.
Qed.

Theorem C57_exact (ops : list py_op) (doc : text) (t : list token) :
  is_order order -> fresh tokens ops -> tokens doc = Some t ->
  exists l, py_query lower shingles_str shingles_words hash bh ck hk order (prun new ops) doc = Some l /\
    forall id, id ∈ l <-> expected_answer nb bw bh th (sg <$> content tokens ops) (sg t) id.
Proof.
  intros Ho Hf Ht. rewrite run_new. unfold py_query. rewrite doc_sig, Ht. cbn.
  unfold py_query_sig. cbn [PyFacts.at_ops py_inner]. rewrite query_owned_query.
  destruct (exact_answer ck bh nb bw th (concat (trans <$> ops)) (sg t)) as (S & -> & HS);
    [by apply clean_run|apply sg_ok|].
  cbn. eexists. split; [done|]. intros id. rewrite (Ho S), elem_of_elements, HS, spec_run. done.
Qed.

Theorem C57_similarity (ops : list py_op) (doc : text) (t : list token) :
  is_order order -> is_sort f64_ge sort -> fresh tokens ops -> tokens doc = Some t ->
  exists l, py_query_return_similarity lower shingles_str shingles_words hash bh ck hk order sort (prun new ops) doc = Some l /\
    NoDup l.*1 /\
    (forall id v, (id, v) ∈ l <->
       expected_answer nb bw bh th (sg <$> content tokens ops) (sg t) id /\
       exists t', content tokens ops !! id = Some t' /\ v = sim (sg t') (sg t)) /\
    forall i j a c, i < j -> l !! i = Some a -> l !! j = Some c -> f64_ge a.2 c.2 = true.
Proof.
  intros Ho Hs Hf Ht. rewrite run_new. unfold py_query_return_similarity. rewrite doc_sig, Ht. cbn [fmap option_fmap option_map mbind option_bind].
  cbn [PyFacts.at_ops py_inner].
  destruct (return_similarity_spec (container ck Z) bh nb bw th
    (after ck bh nb bw th (concat (trans <$> ops))) (spec_map (nb * bw) (concat (trans <$> ops)))
    (sg t) order sort) as (l & -> & Hnd & Hin & Hso); try done.
  - apply after_inv.
  - apply after_exact. by apply clean_run.
  - apply well_sized_run.
  - apply sg_ok.
  - exists l. split; [done|]. split; [done|]. split; [|done]. intros id v. rewrite Hin, spec_run.
    apply and_iff_compat_l. split.
    + intros (s & Hls & ->). rewrite lookup_fmap in Hls. destruct (content tokens ops !! id) as [t'|]; [|done].
      cbn in Hls. injection Hls as <-. eauto.
    + intros (t' & Hc & ->). exists (sg t'). by rewrite lookup_fmap, Hc.
Qed.

(** Bulk queries answer document by document, on any object. *)
Theorem C57_bulk (m : py_index ck) (s1 s2 : list nat) (docs : list text) (tss : list (list text)) :
  py_par_bulk_query lower shingles_str shingles_words hash bh ck hk order s1 s2 m docs =
    mapM (py_query lower shingles_str shingles_words hash bh ck hk order m) docs /\
  py_par_bulk_query_return_similarity lower shingles_str shingles_words hash bh ck hk order sort s1 s2 m docs =
    mapM (py_query_return_similarity lower shingles_str shingles_words hash bh ck hk order sort m) docs /\
  py_par_bulk_query_tokens hash bh ck hk order s1 s2 m tss = mapM (py_query_tokens hash bh ck hk order m) tss /\
  py_par_bulk_query_tokens_return_similarity hash bh ck hk order sort s1 s2 m tss =
    mapM (py_query_tokens_return_similarity hash bh ck hk order sort m) tss.
Proof.
  assert (Hk : forall {A B C} (f : A -> option B) (g : B -> option C) l,
    (x ← mapM f l; mapM g x) = mapM (fun a => f a ≫= g) l).
  { clear. intros A B C f g l. induction l as [|a l IH]; [done|]. cbn [mapM]. rewrite <- IH.
    destruct (f a) as [b|]; [|done]. cbn. destruct (mapM f l) as [bs|]; cbn; [done|].
    by destruct (g b). }
  unfold py_par_bulk_query, py_par_bulk_query_return_similarity, py_par_bulk_query_tokens,
    py_par_bulk_query_tokens_return_similarity, bulk_hash_docs, bulk_hash_tokens, bulk_create_signature,
    par_bulk_query, par_bulk_query_return_similarity.
  rewrite !par_map_mapM.
  assert (Et : mapM (create_signature hk hash (py_hasher m)) (given_tokens <$> tss) =
               mapM (py_tokens_signature hash ck hk m) tss).
  { clear. induction tss as [|ts tss IH]; [done|]. cbn. by rewrite IH. }
  rewrite Et. split; [|split; [|split]].
  - unfold py_query. rewrite <- Hk. destruct (mapM _ docs) as [sigs|]; [|done]. cbn.
    rewrite par_map_mapM. unfold py_query_sig. by rewrite mapM_fmap_Some.
  - unfold py_query_return_similarity. rewrite <- Hk. destruct (mapM _ docs) as [sigs|]; [|done]. cbn.
    by rewrite par_map_mapM.
  - unfold py_query_tokens. rewrite <- Hk. destruct (mapM _ tss) as [sigs|]; [|done]. cbn.
    rewrite par_map_mapM. unfold py_query_sig. by rewrite mapM_fmap_Some.
  - unfold py_query_tokens_return_similarity. rewrite <- Hk. destruct (mapM _ tss) as [sigs|]; [|done]. cbn.
    by rewrite par_map_mapM.
Qed.

(** ** C53: the native constructor *)
Theorem C53_native_constructor (num_bands band_width num_hashes : option nat) :
  py_new powf draws ck th (Some nb) (Some bw) num_hashes an lc range = Made new /\
  (num_bands = None \/ band_width = None ->
   py_new powf draws ck th num_bands band_width None an lc range = ValueError /\
   forall n, exists b r, py_new powf draws ck th num_bands band_width (Some n) an lc range =
                         Made (py_make draws ck th b r an lc range) /\
     1 <= r /\ b = n / r /\ b * r <= n /\ (1 <= n -> 1 <= b)).
Proof.
  split; [done|]. intros Hn.
  assert (E : forall nh, py_new powf draws ck th num_bands band_width nh an lc range =
    match nh with
    | Some n => match calculate_minhash_params powf th n with
                | Some (b, r) => Made (py_make draws ck th b r an lc range)
                | None => Diverges
                end
    | None => ValueError
    end).
  { intros nh. unfold py_new. destruct num_bands, band_width; try done. by destruct Hn. }
  rewrite E. split; [done|]. intros n. rewrite E. unfold calculate_minhash_params.
  destruct (b_and_r_spec powf th n (f64_div (f64_of_N 99) (f64_of_N 100))) as (b & r & -> & H1 & H2 & H3 & H4 & _).
  exists b, r. split; [done|]. split; [done|]. split; [done|]. split; [done|]. intros H. by apply H4.
Qed.
End MinHash.

(** ** The class of minhash.py *)
Section Class.
Context (lower : text -> text)
        (shingles_str : list N -> nat -> option (list (list N)))
        (shingles_words : list (list N) -> nat -> option (list (list (list N)))).
Context (powf : f64 -> f64 -> f64).
Context (hash : token -> N) (draws : N -> nat -> nat -> N) (bh : list N -> N).
Context (order : gset Z -> list Z).
Context (hash_size : Z) (th : f64) (num_bands band_size num_hashes : option nat) (an : analyzer)
        (lc : option bool) (range : option (nat * nat)) (id_container : string).
Notation new := (class_new powf draws hash_size th num_bands band_size num_hashes an lc range id_container).
Notation native_name := (match an with Callable _ => "word"%string | Named s => s end).
Notation cstep := (class_step lower shingles_str shingles_words hash bh).
Notation crun := (class_run lower shingles_str shingles_words hash bh).

Definition accepted : Prop :=
  hash_size ∈ [8; 16; 32; 64]%Z /\ f64_lt th (f64_of_N 0) = false /\ f64_gt th f64_one = false /\
  id_container ∈ ["set"; "vec"; "smallvec"]%string /\
  ((is_Some num_bands /\ is_Some band_size) \/ is_Some num_hashes).

Definition container_name (k : container_kind) : string :=
  match k with KHashSet => "set" | KVec => "vec" | KSmallVec _ => "smallvec" end.

Theorem C53_class_constructor :
  (~ accepted -> new = ValueError) /\
  (accepted -> exists m nb bw, new = Made m /\
     Z.of_N (MinHasher.width (c_hash m)) = hash_size /\ container_name (c_container m) = id_container /\
     c_analyzer m = an /\ c_native m = py_make draws (c_container m) th nb bw (Some native_name) lc range /\
     match num_bands, band_size with
     | Some b, Some r => nb = b /\ bw = r
     | _, _ => exists n, num_hashes = Some n /\ 1 <= bw /\ nb = n / bw
     end).
Proof.
  unfold accepted, class_new.
  destruct (bool_decide (hash_size ∈ [8; 16; 32; 64]%Z)) eqn:E1; cbn [negb];
    [apply bool_decide_eq_true in E1|apply bool_decide_eq_false in E1; tauto].
  destruct (f64_lt th (f64_of_N 0)) eqn:E2; cbn [orb]; [split; [done|]; by intros (_ & ? & _)|].
  destruct (f64_gt th f64_one) eqn:E3; [split; [done|]; by intros (_ & _ & ? & _)|].
  destruct (bool_decide (id_container ∈ ["set"; "vec"; "smallvec"]%string)) eqn:E4; cbn [negb];
    [apply bool_decide_eq_true in E4|apply bool_decide_eq_false in E4; tauto].
  assert (exists hk, choose_hash hash_size = Some hk /\ Z.of_N (MinHasher.width hk) = hash_size) as (hk & -> & Hw).
  { repeat (apply elem_of_cons in E1 as [->|E1]; [by eexists|]). by apply elem_of_nil in E1. }
  assert (exists ck, choose_container id_container = Some ck /\ container_name ck = id_container) as (ck & -> & Hc).
  { repeat (apply elem_of_cons in E4 as [->|E4]; [by eexists|]). by apply elem_of_nil in E4. }
  destruct (decide (is_Some num_bands /\ is_Some band_size)) as [[[b ->] [r ->]]|Hn].
  { split; [intros H; exfalso; apply H; split_and!; eauto|].
    intros _. eexists (ClassIndex ck hk _ an), b, r. cbn. done. }
  assert (Hor : num_bands = None \/ band_size = None).
  { destruct num_bands, band_size; eauto. exfalso. apply Hn. split; eauto. }
  destruct (C53_native_constructor powf draws ck 0 0 th (Some native_name) lc range num_bands band_size None)
    as [_ Hnew]. destruct (Hnew Hor) as [HN HS].
  destruct num_hashes as [n|].
  - split; [intros H; exfalso; apply H; split_and!; eauto|]. intros _.
    destruct (HS n) as (b & r & -> & Hr & Hb & _).
    eexists (ClassIndex ck hk _ an), b, r. cbn. split_and!; try done.
    destruct num_bands, band_size; eauto. exfalso. apply Hn. split; eauto.
  - rewrite HN. split; [done|]. intros (_ & _ & _ & _ & [H|[? H]]); [by apply Hn in H|done].
Qed.

(** ** C52 for the class *)
Lemma class_run_eq m ops :
  crun m ops = ClassIndex (c_container m) (c_hash m)
    (py_run lower shingles_str shingles_words hash bh (c_container m) (c_hash m) (c_native m)
       (class_call (c_analyzer m) <$> ops)) (c_analyzer m).
Proof.
  unfold class_run. revert m. induction ops as [|o ops IH]; intros m; [by destruct m|].
  cbn [fold_left]. rewrite IH. done.
Qed.

Theorem C52_class (m : class_index) (ops : list class_op) (s1 s2 : list nat) (ids : list Z) (docs : list text) :
  new = Made m ->
  (forall doc name, doc ∈ docs -> an = Named name ->
     is_Some (doc_tokens lower shingles_str shingles_words (tokenizer_new name range) (default false lc) doc)) ->
  cstep (crun m ops) (CParBulkInsertDocs s1 s2 ids docs) =
  (crun m (ops ++ zip_with CInsertDocument ids docs), false).
Proof.
  intros Hm Hd. destruct C53_class_constructor as [Hno Hyes].
  assert (Ha : accepted).
  { unfold accepted. destruct (decide (hash_size ∈ [8; 16; 32; 64]%Z)) as [H1|H1].
    2:{ rewrite Hno in Hm by (unfold accepted; tauto). done. }
    destruct (f64_lt th (f64_of_N 0)) eqn:E2.
    { rewrite Hno in Hm by (unfold accepted; intros (_ & ? & _); congruence). done. }
    destruct (f64_gt th f64_one) eqn:E3.
    { rewrite Hno in Hm by (unfold accepted; intros (_ & _ & ? & _); congruence). done. }
    destruct (decide (id_container ∈ ["set"; "vec"; "smallvec"]%string)) as [H4|H4].
    2:{ rewrite Hno in Hm by (unfold accepted; tauto). done. }
    split_and!; try done.
    destruct (decide (is_Some num_bands /\ is_Some band_size)) as [H5|H5]; [by left|].
    destruct (decide (is_Some num_hashes)) as [H6|H6]; [by right|].
    rewrite Hno in Hm by (unfold accepted; tauto). done. }
  destruct (Hyes Ha) as (m' & nb & bw & Hm' & _ & _ & Han & Hnat & _). rewrite Hm in Hm'. injection Hm' as <-.
  rewrite !class_run_eq. unfold class_step. cbn [c_container c_hash c_native c_analyzer].
  rewrite Hnat, Han. rewrite fmap_app. destruct an as [name|f]; cbn [class_call].
  - rewrite (C52_minhash_docs lower shingles_str shingles_words hash draws bh _ _ nb bw th (Some name) lc range).
    + assert (E : class_call (Named name) <$> zip_with CInsertDocument ids docs = zip_with InsertDocument ids docs).
      { clear. revert docs. induction ids as [|id ids IH]; intros [|d docs]; [done..|]. cbn. by rewrite IH. }
      by rewrite E.
    + intros doc Hdoc. by apply Hd.
  - rewrite (proj1 (C52_minhash_tokens lower shingles_str shingles_words hash draws bh _ _ nb bw th (Some "word"%string) lc range _ [] [] ids _)).
    assert (E : class_call (Callable f) <$> zip_with CInsertDocument ids docs = zip_with InsertTokens ids (f <$> docs)).
    { clear. revert docs. induction ids as [|id ids IH]; intros [|d docs]; [done..|]. cbn. by rewrite IH. }
    by rewrite E.
Qed.
End Class.

(** A NaN threshold is accepted, and then every query is empty. *)
Theorem C53_nan_threshold powf draws num_bands band_size num_hashes an lc range :
  is_Some num_bands -> is_Some band_size ->
  exists m, class_new powf draws 32 S754_nan num_bands band_size num_hashes an lc range "set" = Made m.
Proof.
  intros [b ->] [r ->]. edestruct C53_class_constructor as [_ H].
  destruct H as (m & _ & _ & Hm & _); [|by exists m].
  unfold accepted. split_and!; try done; [set_solver|set_solver|left; eauto].
Qed.

Theorem C53_nan_threshold_empty lower shingles_str shingles_words hash draws bh ck hk order nb bw an lc range
    (ops : list py_op) (doc : text) (l : list Z) :
  is_order order ->
  py_query lower shingles_str shingles_words hash bh ck hk order
    (py_run lower shingles_str shingles_words hash bh ck hk (py_make draws ck S754_nan nb bw an lc range) ops) doc
    = Some l -> l = [].
Proof.
  intros Ho Hq. destruct (C57_sound _ _ _ _ _ _ _ _ _ _ _ _ _ _ _ _ _ _ Ho Hq) as (_ & t & _ & Hin).
  destruct l as [|id l]; [done|]. destruct (Hin id) as (t' & _ & Hge); [by left|].
  exfalso. unfold f64_ge, SFleb in Hge. by destruct (sim _ _).
Qed.

(** [num_hashes] has no effect unless [num_bands] or [band_size] is set to None; the other defaults. *)
Theorem C53_num_hashes_ignored powf draws (num_hashes : option nat) :
  class_new_defaults powf draws num_hashes = class_new_defaults powf draws None /\
  exists m, class_new_defaults powf draws num_hashes = Made m /\
    MinHashIndex.num_hashes (py_inner (c_native m)) = 100 /\
    idx_b (py_inner (c_native m)) = 20 /\ idx_r (py_inner (c_native m)) = 5 /\
    threshold (py_inner (c_native m)) = f64_div (f64_of_N 3) (f64_of_N 4) /\
    py_tokenizer (c_native m) = WhiteSpace /\ py_lowercase (c_native m) = false /\
    c_container m = KHashSet /\ c_hash m = MinHasher32 /\ c_analyzer m = Named "word".
Proof. split; [done|]. eexists. split; [vm_compute; reflexivity|]. repeat split; vm_compute; reflexivity. Qed.

(** Re-inserting a document and removing it makes queries with similarities raise. *)
Theorem C53_similarity_refuted :
  exists (ops : list py_op) (doc : text),
    let m := py_run ex_lower ex_shingles ex_shingles ex_token ex_bh KHashSet MinHasher32
               (py_make ex_draws KHashSet half 4 2 None None None) ops in
    is_Some (doc_tokens ex_lower ex_shingles ex_shingles WhiteSpace false doc) /\
    py_query ex_lower ex_shingles ex_shingles ex_token ex_bh KHashSet MinHasher32 elements m doc = Some [] /\
    forall order sort, is_order order ->
    py_query_return_similarity ex_lower ex_shingles ex_shingles ex_token ex_bh KHashSet MinHasher32
      order sort m doc = None.
Proof.
  exists [InsertDocument 1 doc_a; InsertDocument 1 doc_c; PyRemove 1], doc_a. cbn zeta.
  split; [by eexists|]. split; [vm_compute; reflexivity|]. intros order sort Ho.
  set (m := py_run _ _ _ _ _ _ _ _ _).
  unfold py_query_return_similarity, query_owned_return_similarity.
  set (sig := py_doc_signature _ _ _ _ _ _ m doc_a).
  assert (exists s, sig = Some s /\ (elements <$> candidates (container KHashSet Z) ex_bh (py_inner m) s) = Some [1%Z]
    /\ id_signatures (py_inner m) !! 1%Z = None) as (s & -> & Hc & Hn).
  { eexists. split; [vm_compute; reflexivity|]. split; vm_compute; reflexivity. }
  clearbody m. cbn [mbind option_bind]. destruct (candidates _ _ _ s) as [cs|]; [|done].
  cbn [fmap option_fmap option_map mbind option_bind] in Hc |- *. injection Hc as Hc.
  assert (Hp : order cs ≡ₚ [1%Z]) by (rewrite (Ho cs), Hc; done).
  symmetry in Hp. apply Permutation_singleton_l in Hp. rewrite <- Hp. cbn [mapM].
  unfold query_sim_item. rewrite Hn. done.
Qed.

Notation ex_toks := (doc_tokens ex_lower ex_shingles ex_shingles (CharShingle 3 (Some 4)) true).
Definition ex_new := py_make ex_draws KVec half 10 2 (Some "char"%string) (Some true) None.
Definition ex_run := py_run ex_lower ex_shingles ex_shingles ex_token ex_bh KVec MinHasher16.
Definition ex_ids : list Z := Z.of_nat <$> seq 0 120.
Definition ex_docs : list text := (fun i => (97 + N.of_nat i)%N :: doc_a) <$> seq 0 120.

Example C52_example :
  (forall doc, is_Some (ex_toks doc)) /\
  (length ex_ids = 120 /\
   py_size KVec (ex_run ex_new [InsertDocument 1 doc_b; ParBulkInsertDocs [3;1] [] ex_ids ex_docs]) = 120) /\
  py_size KVec (ex_run ex_new [ParBulkInsertDocs [] [] [5; 6]%Z [doc_a; doc_b; doc_c]]) = 2 /\
  py_query ex_lower ex_shingles ex_shingles ex_token ex_bh KVec MinHasher16 elements
    (ex_run ex_new [ParBulkInsertDocs [] [] [5; 6; 7]%Z [doc_a; doc_b; doc_c]]) doc_b = Some [6; 5]%Z /\
  content ex_toks [ParBulkInsertDocs [] [] [5; 6; 7]%Z [doc_a; doc_b; doc_c]] !! 7%Z = ex_toks doc_c /\
  ex_toks doc_c = Some (TStr <$> [[100;111;103]; [100;111;103;115]; [111;103;115]; [111;103;115;33]; [103;115;33]]%N).
Proof.
  split; [intros doc; exact (tokens_total ex_lower ex_shingles ex_shingles "char" None true doc I)|].
  vm_compute. split_and!; reflexivity.
Qed.

Example C53_example :
  raises (doc_tokens ex_lower ex_shingles ex_shingles (WhiteSpaceShingle 0 None) false)
    (ParBulkInsertDocs [] [] [1]%Z [doc_a]) = true /\
  doc_tokens ex_lower ex_shingles ex_shingles (WhiteSpaceShingle 2 None) false doc_b =
    Some (TWords <$> [[[84;104;101]; [99;97;116]]; [[99;97;116]; [115;97;116]]; [[115;97;116]; [111;110]];
                      [[111;110]; [97]]; [[97]; [109;97;116]]]%N) /\
  accepted 16 half None (Some 3) (Some 30) "smallvec" /\
  ~ accepted 16 half None (Some 3) None "smallvec" /\
  ~ accepted 24 half (Some 3) (Some 3) None "smallvec".
Proof.
  split; [by vm_compute|]. split; [by vm_compute|]. unfold accepted. split.
  - split_and!; [set_solver|done|done|set_solver|right; eauto].
  - split; [intros (_ & _ & _ & _ & [[[? H] _]|[? H]]); done|]. intros [H _].
    repeat (apply elem_of_cons in H as [H|H]; [done|]). by apply elem_of_nil in H.
Qed.

Definition ex_history : list py_op :=
  [InsertDocument 1 doc_a; ParBulkInsertDocs [] [] [2; 3]%Z [doc_b; doc_c]; PyRemove 1; InsertDocument 1 doc_b].
Example C57_example :
  fresh ex_toks ex_history /\
  py_query ex_lower ex_shingles ex_shingles ex_token ex_bh KVec MinHasher16 elements (ex_run ex_new ex_history) doc_a
    = Some [1; 2]%Z /\
  expected_answer 10 2 ex_bh half (sig_tokens MinHasher16 ex_token ex_draws 20 <$> content ex_toks ex_history)
    (default [] (sig_tokens MinHasher16 ex_token ex_draws 20 <$> ex_toks doc_a)) 2%Z.
Proof.
  split.
  { vm_compute. repeat first [exact I|reflexivity|split|intros _]. }
  split; [vm_compute; reflexivity|].
  eexists. split; [vm_compute; reflexivity|]. split; [vm_compute; reflexivity|].
  exists 2. split; [lia|]. vm_compute. reflexivity.
Qed.

Print Assumptions C52_minhash_docs.
Print Assumptions C52_minhash_tokens.
Print Assumptions C52_minhash_found.
Print Assumptions C52_class.
Print Assumptions C53_native_constructor.
Print Assumptions C53_class_constructor.
Print Assumptions C53_lengths.
Print Assumptions C53_raises.
Print Assumptions C53_no_range_never_raises.
Print Assumptions C53_queries.
Print Assumptions C53_nan_threshold.
Print Assumptions C53_nan_threshold_empty.
Print Assumptions C53_num_hashes_ignored.
Print Assumptions C53_similarity_refuted.
Print Assumptions C57_size.
Print Assumptions C57_sound.
Print Assumptions C57_exact.
Print Assumptions C57_similarity.
Print Assumptions C57_bulk.

(** ** The simhash class *)
Section SimHash.
Context (lower : text -> text)
        (shingles_str : list N -> nat -> option (list (list N)))
        (shingles_words : list (list N) -> nat -> option (list (list (list N)))).
Context (W : nat) (hash : token -> N).
Context (order : gset Z -> list Z) (sort : list (Z * nat) -> list (Z * nat)).
Notation toks m := (doc_tokens lower shingles_str shingles_words (ps_tokenizer m) (ps_lowercase m)).
Notation step := (ps_step lower shingles_str shingles_words W hash).
Notation srun := (ps_run lower shingles_str shingles_words W hash).
Notation sg := (ssig_tokens W hash).

(** Bulk insertion on any object. *)
Theorem C52_simhash_docs (m : py_sindex) (s1 s2 : list nat) (ids : list Z) (docs : list text) :
  (forall doc, doc ∈ docs -> is_Some (toks m doc)) ->
  step m (SParBulkInsertDocs s1 s2 ids docs) = (srun m (zip_with SInsertDocument ids docs), false).
Proof.
  intros Hd. rewrite sstep_eq, srun_eq.
  assert (exists ts, toks m <$> docs = Some <$> ts) as [ts Ets].
  { induction docs as [|d docs IH]; [by exists []|].
    destruct (Hd d) as [t Ht]; [by left|]. destruct IH as [ts E]; [intros; apply Hd; by right|].
    exists (t :: ts). cbn. by rewrite Ht, E. }
  assert (Hm : missing (toks m <$> docs) = false).
  { rewrite Ets. clear. by induction ts. }
  unfold sraises. cbn [sbatch_raises sasked]. rewrite Hm, andb_false_r, Ets, missing_all. cbn [orb].
  f_equal. f_equal. f_equal. unfold spairs at 1. cbn [sbatch_raises sasked]. rewrite Hm, andb_false_r, Ets, sok_all.
  clear Hd Hm. revert docs ts Ets. induction ids as [|id ids IH]; intros [|d docs] [|t ts] E; try done.
  cbn in E. injection E as Et E. cbn [zip zip_with fmap list_fmap concat].
  rewrite <- (IH docs ts E). unfold spairs. cbn [sbatch_raises sasked]. by rewrite Et.
Qed.

Theorem C52_simhash_tokens (m : py_sindex) (s1 s2 : list nat) (ids : list Z) (tss : list (list text)) :
  step m (SParBulkInsertTokens s1 s2 ids tss) = (srun m (zip_with SInsertTokens ids tss), false).
Proof.
  rewrite sstep_eq, srun_eq. unfold sraises. cbn [sbatch_raises sasked]. rewrite orb_false_r.
  unfold spairs at 1. cbn [sbatch_raises sasked].
  change ((fun t => Some (map as_str t)) <$> tss) with ((Some ∘ map as_str) <$> tss).
  rewrite list_fmap_compose, missing_all, sok_all. f_equal. f_equal. f_equal.
  revert tss. induction ids as [|id ids IH]; intros [|ts tss]; [done..|]. cbn. f_equal. apply IH.
Qed.

(** ** C58 *)
Theorem C58_raises (m : py_sindex) (o : py_sop) : (step m o).2 = sraises (toks m) o.
Proof. by rewrite sstep_eq. Qed.

Theorem C58_exact (nb d : nat) name lc range (m : py_sindex) (ops : list py_sop) (doc : text) (t : list token) :
  1 < W -> ps_new W nb d name lc range = Some m -> is_order order -> toks m doc = Some t ->
  exists l, ps_query lower shingles_str shingles_words W hash order (srun m ops) doc = Some l /\
    NoDup l /\
    forall id, id ∈ l <-> exists t', scontent (toks m) ops !! id = Some t' /\ hamming W (sg t) (sg t') < d.
Proof.
  intros HW Hm Ho Ht.
  destruct (srun_inv lower shingles_str shingles_words W hash nb d name lc range m ops HW Hm) as [Hd Hinv].
  unfold ps_query. rewrite sdoc_sig.
  assert (E : toks (srun m ops) doc = Some t) by (rewrite srun_eq; exact Ht).
  rewrite E. cbn [fmap option_fmap option_map mbind option_bind].
  destruct (squery_exact W nb d _ _ (sg t) HW Hd Hinv) as (S & -> & HS); [apply ssg_ok|].
  cbn. eexists. split; [done|]. split; [rewrite (Ho S); apply NoDup_elements|].
  intros id. rewrite (Ho S), elem_of_elements, HS. split.
  - intros (s & Hs & Hlt). rewrite lookup_fmap in Hs.
    destruct (scontent _ _ !! id) as [t'|]; [|done]. cbn in Hs. injection Hs as <-. eauto.
  - intros (t' & Hc & Hlt). exists (sg t'). by rewrite lookup_fmap, Hc.
Qed.

Theorem C58_found (nb d : nat) name lc range (m : py_sindex) (ops : list py_sop) (doc : text) (t : list token) (id : Z) :
  1 < W -> ps_new W nb d name lc range = Some m -> is_order order -> toks m doc = Some t ->
  scontent (toks m) ops !! id = Some t ->
  exists l, ps_query lower shingles_str shingles_words W hash order (srun m ops) doc = Some l /\ (id ∈ l <-> 0 < d).
Proof.
  intros HW Hm Ho Ht Hc. destruct (C58_exact nb d name lc range m ops doc t HW Hm Ho Ht) as (l & Hl & _ & Hin).
  assert (E0 : hamming W (sg t) (sg t) = 0).
  { unfold hamming. induction (seq 0 W) as [|i l0 IH]; [done|]. rewrite filter_cons_False; [done|]. intros H. by apply H. }
  exists l. split; [done|]. rewrite Hin. split.
  - intros (t' & Hc' & Hlt). lia.
  - intros Hd. exists t. split; [done|]. by rewrite E0.
Qed.

Theorem C58_distance (nb d : nat) name lc range (m : py_sindex) (ops : list py_sop) (doc : text) (t : list token) :
  1 < W -> ps_new W nb d name lc range = Some m -> is_order order -> is_sort_by_distance sort -> toks m doc = Some t ->
  exists l, ps_query_return_distance lower shingles_str shingles_words W hash order sort (srun m ops) doc = Some l /\
    NoDup l.*1 /\
    (forall id k, (id, k) ∈ l <-> exists t', scontent (toks m) ops !! id = Some t' /\ k = hamming W (sg t) (sg t') /\ k < d) /\
    forall i j a b, i < j -> l !! i = Some a -> l !! j = Some b -> a.2 <= b.2.
Proof.
  intros HW Hm Ho Hs Ht.
  destruct (srun_inv lower shingles_str shingles_words W hash nb d name lc range m ops HW Hm) as [Hd Hinv].
  unfold ps_query_return_distance. rewrite sdoc_sig.
  assert (E : toks (srun m ops) doc = Some t) by (rewrite srun_eq; exact Ht).
  rewrite E. cbn [fmap option_fmap option_map mbind option_bind].
  destruct (squery_return_distance_spec W nb d _ _ (sg t) order sort HW Hd Hinv) as (l & -> & Hnd & Hin & Hle);
    [apply ssg_ok|done|done|].
  exists l. split; [done|]. split; [done|]. split; [|done]. intros id k. rewrite Hin. split.
  - intros (s & Hls & Hk). rewrite lookup_fmap in Hls.
    destruct (scontent _ _ !! id) as [t'|]; [|done]. cbn in Hls. injection Hls as <-. eauto.
  - intros (t' & Hc & Hk). exists (sg t'). by rewrite lookup_fmap, Hc.
Qed.

(** The bulk queries are the single queries, in order. *)
Theorem C58_bulk (m : py_sindex) (s1 s2 : list nat) (docs : list text) (tss : list (list text)) :
  ps_par_bulk_query lower shingles_str shingles_words W hash order s1 s2 m docs =
    mapM (ps_query lower shingles_str shingles_words W hash order m) docs /\
  ps_par_bulk_query_return_distance lower shingles_str shingles_words W hash order sort s1 s2 m docs =
    mapM (ps_query_return_distance lower shingles_str shingles_words W hash order sort m) docs /\
  ps_par_bulk_query_tokens_return_similarity W hash order sort s1 s2 m tss =
    mapM (ps_query_tokens_return_distance W hash order sort m) tss.
Proof.
  assert (Hk : forall {A B C} (f : A -> option B) (g : B -> option C) l,
    (x ← mapM f l; mapM g x) = mapM (fun a => f a ≫= g) l).
  { clear. intros A B C f g l. induction l as [|a l IH]; [done|]. cbn [mapM]. rewrite <- IH.
    destruct (f a) as [b|]; [|done]. cbn. destruct (mapM f l) as [bs|]; cbn; [done|].
    by destruct (g b). }
  unfold ps_par_bulk_query, ps_par_bulk_query_return_distance, ps_par_bulk_query_tokens_return_similarity,
    par_bulk_doc2signatures, par_bulk_tokens2signatures.
  rewrite !par_map_mapM. split; [|split].
  - unfold ps_query. rewrite <- Hk. destruct (mapM _ docs) as [sigs|]; [|done]. cbn [mbind option_bind].
    unfold spar_bulk_query. by rewrite par_map_mapM, mapM_fmap_Some.
  - unfold ps_query_return_distance. rewrite <- Hk. destruct (mapM _ docs) as [sigs|]; [|done]. cbn [mbind option_bind].
    unfold spar_bulk_query_return_distance. by rewrite par_map_mapM.
  - unfold ps_query_tokens_return_distance. rewrite <- Hk. destruct (mapM _ tss) as [sigs|]; [|done].
    cbn [mbind option_bind]. unfold spar_bulk_query_return_distance. by rewrite par_map_mapM.
Qed.

(** ** C54 *)
Context (sched1 sched2 : list nat).
Notation squery_ := (sclass_query lower shingles_str shingles_words W hash order sort sched1 sched2).
Notation sbulk_ := (sclass_par_bulk_query lower shingles_str shingles_words W hash order sort sched1 sched2).

Theorem C54_attribute_errors (m : py_sindex) (name : string) (f : text -> list text) (doc : text) (docs : list text) :
  squery_ m (Named name) doc true = AttributeError "query_return_similarity" /\
  squery_ m (Callable f) doc true = AttributeError "query_tokens_return_similarity" /\
  sbulk_ m (Callable f) docs true = AttributeError "par_bulk_query_tokens_return_distance" /\
  sbulk_ m (Callable f) docs false = AttributeError "par_bulk_query_tokens" /\
  sbulk_ m (Named name) docs true = AttributeError "par_bulk_query_tokens_return_distance".
Proof. done. Qed.

(** The remaining calls reach the native class. *)
Theorem C54_working_calls (m : py_sindex) (name : string) (f : text -> list text) (doc : text) (docs : list text) :
  squery_ m (Named name) doc false =
    match ps_query lower shingles_str shingles_words W hash order m doc with
    | Some l => Value (VIds l) | None => PanicException end /\
  squery_ m (Callable f) doc false =
    match ps_query_tokens W hash order m (f doc) with
    | Some l => Value (VIds l) | None => PanicException end /\
  sbulk_ m (Named name) docs false =
    match mapM (ps_query lower shingles_str shingles_words W hash order m) docs with
    | Some l => Value (VIdLists l) | None => PanicException end.
Proof.
  split; [done|]. split; [done|]. cbn. unfold outcome. by rewrite (proj1 (C58_bulk m sched1 sched2 docs [])).
Qed.
End SimHash.

Theorem C54_constructor (hash_size num_blocks hamming_distance : Z) (an : analyzer) lc range :
  let r := sclass_new hash_size num_blocks hamming_distance an lc range in
  let W := Z.to_nat hash_size in
  (hash_size ∉ [64; 128]%Z -> r = BadHashSize) /\
  (hash_size ∈ [64; 128]%Z ->
   (num_blocks <= hamming_distance -> r = BadDistance)%Z /\
   ((hamming_distance < num_blocks)%Z ->
    (forall s, an = Named s -> s ∉ ["word"; "char"]%string -> r = BadAnalyzer) /\
    ((forall s, an = Named s -> s ∈ ["word"; "char"]%string) ->
     (hamming_distance < 0 -> r = OverflowError)%Z /\
     (0 <= hamming_distance -> hash_size < num_blocks -> r = SPanic)%Z /\
     ((0 <= hamming_distance)%Z -> (num_blocks <= hash_size)%Z -> exists m, r = SMade W m /\
        ps_new W (Z.to_nat num_blocks) (Z.to_nat hamming_distance)
          (Some match an with Callable _ => "word"%string | Named s => s end) lc range = Some m)))).
Proof.
  cbn zeta. unfold sclass_new. split; [intros H; by rewrite bool_decide_false|]. intros Hs.
  rewrite bool_decide_true by done. cbn [negb].
  assert (E0 : ((num_blocks <? 3) && (32 <? num_blocks))%Z = false).
  { destruct (Z.ltb_spec num_blocks 3), (Z.ltb_spec 32 num_blocks); try done. lia. }
  rewrite E0.
  split; [intros Hle; by rewrite (proj2 (Z.leb_le _ _) Hle)|]. intros Hlt.
  rewrite (proj2 (Z.leb_gt _ _) Hlt). split.
  { intros s -> Hn. by rewrite bool_decide_false. }
  intros Hok.
  assert (E1 : match an with
               | Callable _ => false
               | Named s => negb (bool_decide (s ∈ ["word"; "char"]%string))
               end = false).
  { destruct an as [s|f]; [|done]. by rewrite bool_decide_true by (by apply Hok). }
  rewrite E1. clear E1 Hok.
  set (name := match an with Callable _ => "word"%string | Named s => s end).
  assert (HW : (if (hash_size =? 64)%Z then 64 else 128) = Z.to_nat hash_size).
  { apply elem_of_cons in Hs as [->|Hs]; [done|]. apply elem_of_list_singleton in Hs as ->. done. }
  rewrite HW.
  assert (HW1 : (1 < hash_size)%Z).
  { apply elem_of_cons in Hs as [->|Hs]; [done|]. apply elem_of_list_singleton in Hs as ->. done. }
  split; [|split].
  - intros Hneg. rewrite (proj2 (Z.ltb_lt hamming_distance 0) Hneg), orb_true_r. done.
  - intros H0 Hbig. rewrite (proj2 (Z.ltb_ge num_blocks 0)), (proj2 (Z.ltb_ge hamming_distance 0)) by lia.
    cbn [orb]. unfold ps_new, sindex_new. rewrite perm_create_too_many by lia. done.
  - intros H0 Hin. rewrite (proj2 (Z.ltb_ge num_blocks 0)), (proj2 (Z.ltb_ge hamming_distance 0)) by lia.
    cbn [orb]. unfold ps_new.
    destruct (sindex_new_inv (Id := Z) (Z.to_nat hash_size) (Z.to_nat num_blocks) (Z.to_nat hamming_distance))
      as (m & E & _); [lia|lia|]. rewrite E. cbn. eauto.
Qed.

(** The range check of [num_blocks] never rejects. *)
Theorem C54_num_blocks_check hash_size num_blocks hamming_distance an lc range :
  sclass_new hash_size num_blocks hamming_distance an lc range ≠ BadNumBlocks.
Proof.
  unfold sclass_new. destruct (negb _); [done|].
  destruct (Z.ltb_spec num_blocks 3), (Z.ltb_spec 32 num_blocks); cbn [andb]; try lia;
    repeat case_match; done.
Qed.

Example C54_example :
  (exists m, sclass_new 64 2 1 (Named "word") None None = SMade 64 m) /\
  (exists m, sclass_new 128 40 1 (Callable (fun t => [t])) None None = SMade 128 m) /\
  sclass_new 64 65 1 (Named "char") None None = SPanic /\
  sclass_new 64 6 (-1) (Named "char") None None = OverflowError.
Proof.
  split; [|split; [|split; [|done]]].
  - destruct (C54_constructor 64 2 1 (Named "word") None None) as [_ H]. destruct H as [_ H]; [by left|].
    destruct H as [_ H]; [done|]. destruct H as (_ & _ & H); [intros s [= <-]; by left|].
    destruct H as (m & -> & _); [done..|]. by exists m.
  - destruct (C54_constructor 128 40 1 (Callable (fun t => [t])) None None) as [_ H].
    destruct H as [_ H]; [by right; left|]. destruct H as [_ H]; [done|]. destruct H as (_ & _ & H); [done|].
    destruct H as (m & -> & _); [done..|]. by exists m.
  - destruct (C54_constructor 64 65 1 (Named "char") None None) as [_ H]. destruct H as [_ H]; [by left|].
    destruct H as [_ H]; [done|]. destruct H as (_ & H & _); [intros s [= <-]; by right; left|]. by apply H.
Qed.

Definition ex_sops : list py_sop :=
  [SInsertDocument 1 doc_a; SParBulkInsertDocs [] [] [2; 3]%Z [doc_b; doc_c]].
Example C58_example :
  (m ← ps_new 64 5 3 None None None;
   ps_query ex_lower ex_shingles ex_shingles 64 ex_token elements
     (ps_run ex_lower ex_shingles ex_shingles 64 ex_token m ex_sops) doc_a) = Some [1]%Z /\
  hamming 64 (ssig_tokens 64 ex_token (TStr <$> words doc_a)) (ssig_tokens 64 ex_token (TStr <$> words doc_b)) = 3 /\
  (m ← ps_new 64 5 4 None None None;
   ps_query ex_lower ex_shingles ex_shingles 64 ex_token elements
     (ps_run ex_lower ex_shingles ex_shingles 64 ex_token m ex_sops) doc_a) = Some [1; 2]%Z.
Proof. vm_compute. split_and!; reflexivity. Qed.

Print Assumptions C52_simhash_docs.
Print Assumptions C52_simhash_tokens.
Print Assumptions C54_attribute_errors.
Print Assumptions C54_working_calls.
Print Assumptions C54_constructor.
Print Assumptions C54_num_blocks_check.
Print Assumptions C58_raises.
Print Assumptions C58_exact.
Print Assumptions C58_found.
Print Assumptions C58_distance.
Print Assumptions C58_bulk.
