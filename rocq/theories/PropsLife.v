(** C101: the life of one id decides what is left of it. *)
From stdpp Require Import base list gmap strings.
From Coq Require Import NArith ZArith.
From Verif Require Import Base Float Container MinHashIndex SpecIndex SpecHistory SpecHistoryQuery
  MinHashIndexFacts MinHashIndexFacts2 MinHashIndexFacts3 MinHashIndexThms ExampleIndex
  HistoryFacts PropsHistory HistoryQueryFacts MinHasher Text StringIndex
  PyTokenizer PyMinHash SpecPy PyFacts PropsPy SpecLife LifeFacts.
From Verif Require PropsHistoryQuery.
Local Open Scope nat_scope.

(** ** The index of the Rust crate *)

(** A vector holds an id once for each insertion that is not undone by the very next call. *)
Theorem C101_count {T} `{!EqDecision T} {Id} `{Countable Id}
    (k : container_kind) (bh : list T -> N) (nb bw : nat) (th : f64)
    (ops : list (op Id T)) (i : nat) b (key : N) (x : Id) :
  k <> KHashSet -> whole (nb * bw) ops -> Forall no_bulk_remove ops ->
  bands (after k bh nb bw th ops) !! i = Some b ->
  length (filter (fun y => y = x)
    (match hash_table b !! key with Some c => ic_elems (container k Id) c | None => [] end)) =
  length (filter (fun s => bh (nth_band bw i s) = key) (left_over (life (nb * bw) x ops))).
Proof. exact (life_count k bh nb bw th ops i b key x). Qed.

(** The keys of a table are those under which some id remains; their number is in [band_sizes]. *)
Theorem C101_keys {T} `{!EqDecision T} {Id} `{Countable Id}
    (k : container_kind) (bh : list T -> N) (nb bw : nat) (th : f64)
    (ops : list (op Id T)) (i : nat) b (key : N) :
  whole (nb * bw) ops -> Forall no_bulk_remove ops ->
  bands (after k bh nb bw th ops) !! i = Some b ->
  is_Some (hash_table b !! key) <->
  exists x, remains k (fun s => bh (nth_band bw i s) = key) (life (nb * bw) x ops).
Proof. exact (life_keys k bh nb bw th ops i b key). Qed.

Theorem C101_band_sizes {T} `{!EqDecision T} {Id} `{Countable Id}
    (k : container_kind) (bh : list T -> N) (nb bw : nat) (th : f64)
    (ops : list (op Id T)) st (i z : nat) :
  whole (nb * bw) ops -> Forall no_bulk_remove ops ->
  band_sizes (container k Id) (after k bh nb bw th ops) = Some st -> sizes st !! i = Some z ->
  exists keys : list N, NoDup keys /\ length keys = z /\
    forall key, key ∈ keys <->
      exists x, remains k (fun s => bh (nth_band bw i s) = key) (life (nb * bw) x ops).
Proof. exact (life_sizes k bh nb bw th ops st i z). Qed.

(** The answers of a query. *)
Theorem C101_query {T} `{!EqDecision T} {Id} `{Countable Id}
    (k : container_kind) (bh : list T -> N) (nb bw : nat) (th : f64)
    (ops : list (op Id T)) (q : list T) :
  whole (nb * bw) ops -> Forall no_bulk_remove ops ->
  well_sized (nb * bw) (spec_map (nb * bw) ops) -> length q = nb * bw ->
  exists S, query (container k Id) bh (after k bh nb bw th ops) q = Some S /\
    forall x, x ∈ S <-> exists s, now (life (nb * bw) x ops) = Some s /\
      f64_ge (sim s q) th = true /\ haunts k bh nb bw (life (nb * bw) x ops) q.
Proof. exact (life_query k bh nb bw th ops q). Qed.

(** The query with similarities panics exactly when it meets an id that is not there now. *)
Theorem C101_similarity_panics {T} `{!EqDecision T} {Id} `{Countable Id}
    (k : container_kind) (bh : list T -> N) (nb bw : nat) (th : f64)
    (ops : list (op Id T)) (q : list T) order sort :
  whole (nb * bw) ops -> Forall no_bulk_remove ops ->
  well_sized (nb * bw) (spec_map (nb * bw) ops) -> length q = nb * bw ->
  is_order order -> is_sort f64_ge sort ->
  query_owned_return_similarity (container k Id) bh order sort (after k bh nb bw th ops) q = None <->
  exists x, now (life (nb * bw) x ops) = None /\ haunts k bh nb bw (life (nb * bw) x ops) q.
Proof. exact (life_similarity_panics k bh nb bw th ops q order sort). Qed.

(** With vectors no call but [clear] gets rid of a ghost. *)
Theorem C101_vec_forever {T} `{!EqDecision T} {Id} `{Countable Id}
    (k : container_kind) (bh : list T -> N) (nb bw : nat) (x : Id)
    (ops ops' : list (op Id T)) (q : list T) :
  k <> KHashSet -> Forall (fun o => o <> Clear) ops' ->
  now (life (nb * bw) x ops) = None -> haunts k bh nb bw (life (nb * bw) x ops) q ->
  haunts k bh nb bw (life (nb * bw) x (ops ++ ops')) q.
Proof. exact (vec_forever k bh nb bw x ops ops' q). Qed.

(** With sets, inserting the overwritten signature once more and removing it does. *)
Theorem C101_set_exorcism {T} `{!EqDecision T} {Id} `{Countable Id}
    (bh : list T -> N) (nb bw : nat) (x : Id) (ops : list (op Id T)) (s : list T) :
  length s = nb * bw ->
  ~ haunts KHashSet bh nb bw (life (nb * bw) x (ops ++ [Insert x s; Remove x])) s.
Proof. exact (set_exorcism bh nb bw x ops s). Qed.

(** ** The class of the Python extension: any calls at all *)
Section Python.
Context (lower : text -> text)
        (shingles_str : list N -> nat -> option (list (list N)))
        (shingles_words : list (list N) -> nat -> option (list (list (list N)))).
Context (hash : token -> N) (draws : N -> nat -> nat -> N) (bh : list N -> N).
Context (ck : container_kind) (hk : hasher_kind).
Context (order : gset Z -> list Z) (sort : list (Z * f64) -> list (Z * f64)).
Context (nb bw : nat) (th : f64) (an : option string) (lc : option bool) (range : option (nat * nat)).
Notation tokens :=
  (doc_tokens lower shingles_str shingles_words (tokenizer_new (default "word"%string an) range) (default false lc)).
Notation new := (py_make draws ck th nb bw an lc range).
Notation prun := (py_run lower shingles_str shingles_words hash bh ck hk).
Notation sg := (sig_tokens hk hash draws (nb * bw)).
Notation trans := (trans lower shingles_str shingles_words hash draws hk nb bw
  (tokenizer_new (default "word"%string an) range) (default false lc)).

(** A document with the tokens [t] finds the id [x] in some band. *)
Definition py_haunts (ops : list py_op) (t : list token) (x : Z) : Prop :=
  exists i, i < nb /\
    remains ck (fun t' => bh (nth_band bw i (sg t')) = bh (nth_band bw i (sg t))) (py_life tokens x ops).

Lemma haunts_run ops t x :
  haunts ck bh nb bw (life (nb * bw) x (concat (trans <$> ops))) (sg t) <-> py_haunts ops t x.
Proof.
  unfold haunts, py_haunts. rewrite life_run.
  split; intros (i & Hi & Hr); exists i; (split; [done|]); by apply (remains_fmap sg) in Hr || apply (remains_fmap sg).
Qed.

Lemma now_run ops x : now (life (nb * bw) x (concat (trans <$> ops))) = sg <$> now (py_life tokens x ops).
Proof. rewrite life_run. apply now_fmap. Qed.

Lemma query_run ops t : is_order order ->
  exists l, py_query_sig bh ck order (prun new ops) (sg t) = Some l /\ NoDup l /\
    forall x, x ∈ l <-> exists t', now (py_life tokens x ops) = Some t' /\
      f64_ge (sim (sg t') (sg t)) th = true /\ py_haunts ops t x.
Proof.
  intros Ho. rewrite run_new. unfold py_query_sig. cbn [PyFacts.at_ops py_inner].
  rewrite query_owned_query.
  destruct (life_query ck bh nb bw th (concat (trans <$> ops)) (sg t)) as (S & -> & HS).
  - apply single_whole, run_single.
  - apply single_no_bulk, run_single.
  - apply well_sized_run.
  - apply sg_ok.
  - cbn. eexists. split; [done|]. split; [rewrite (Ho S); apply NoDup_elements|].
    intros x. rewrite (Ho S), elem_of_elements, HS. rewrite now_run.
    setoid_rewrite haunts_run. split.
    + intros (s & Hs & Hr). destruct (now (py_life tokens x ops)) as [t'|]; [|done].
      simpl in Hs. injection Hs as <-. eauto.
    + intros (t' & -> & Hr). exists (sg t'). done.
Qed.

Theorem C101_py_query (ops : list py_op) (doc : text) (t : list token) :
  is_order order -> tokens doc = Some t ->
  exists l, py_query lower shingles_str shingles_words hash bh ck hk order (prun new ops) doc = Some l /\
    NoDup l /\
    forall x, x ∈ l <-> exists t', now (py_life tokens x ops) = Some t' /\
      f64_ge (sim (sg t') (sg t)) th = true /\ py_haunts ops t x.
Proof.
  intros Ho Ht. destruct (query_run ops t Ho) as (l & Hl & Hr). exists l. split; [|done].
  rewrite <- Hl, run_new. unfold py_query. rewrite doc_sig, Ht. done.
Qed.

Theorem C101_py_query_tokens (ops : list py_op) (ts : list text) :
  is_order order ->
  exists l, py_query_tokens hash bh ck hk order (prun new ops) ts = Some l /\
    NoDup l /\
    forall x, x ∈ l <-> exists t', now (py_life tokens x ops) = Some t' /\
      f64_ge (sim (sg t') (sg (map as_str ts))) th = true /\ py_haunts ops (map as_str ts) x.
Proof.
  intros Ho. destruct (query_run ops (map as_str ts) Ho) as (l & Hl & Hr). exists l. split; [|done].
  rewrite <- Hl, run_new. unfold py_query_tokens. rewrite tokens_sig. done.
Qed.

Lemma doc_run ops doc :
  py_doc_signature lower shingles_str shingles_words hash ck hk (prun new ops) doc = sg <$> tokens doc.
Proof. rewrite run_new. apply doc_sig. Qed.

Lemma tokens_run ops ts : py_tokens_signature hash ck hk (prun new ops) ts = Some (sg (map as_str ts)).
Proof. rewrite run_new. apply tokens_sig. Qed.

Lemma similarity_run ops t : is_order order -> is_sort f64_ge sort ->
  query_owned_return_similarity (container ck Z) bh order sort (py_inner (prun new ops)) (sg t) = None <->
  exists x, now (py_life tokens x ops) = None /\ py_haunts ops t x.
Proof.
  intros Ho Hs. rewrite run_new. cbn [PyFacts.at_ops py_inner].
  rewrite (life_similarity_panics ck bh nb bw th (concat (trans <$> ops)) (sg t) order sort); [|..].
  - setoid_rewrite haunts_run. setoid_rewrite now_run.
    split; intros (x & Hn & Hh); exists x; (split; [|done]).
    + by destruct (now _).
    + by rewrite Hn.
  - apply single_whole, run_single.
  - apply single_no_bulk, run_single.
  - apply well_sized_run.
  - apply sg_ok.
  - done.
  - done.
Qed.

(** A query with similarities raises exactly when the document has no tokens or meets a ghost. *)
Theorem C101_py_raises (ops : list py_op) (doc : text) :
  is_order order -> is_sort f64_ge sort ->
  py_query_return_similarity lower shingles_str shingles_words hash bh ck hk order sort (prun new ops) doc = None <->
  match tokens doc with
  | None => True
  | Some t => exists x, now (py_life tokens x ops) = None /\ py_haunts ops t x
  end.
Proof.
  intros Ho Hs. destruct (tokens doc) as [t|] eqn:Ht.
  - rewrite <- (similarity_run ops t Ho Hs). unfold py_query_return_similarity.
    by rewrite doc_run, Ht.
  - split; [done|]. intros _. unfold py_query_return_similarity. by rewrite doc_run, Ht.
Qed.

Theorem C101_py_raises_tokens (ops : list py_op) (ts : list text) :
  is_order order -> is_sort f64_ge sort ->
  py_query_tokens_return_similarity hash bh ck hk order sort (prun new ops) ts = None <->
  exists x, now (py_life tokens x ops) = None /\ py_haunts ops (map as_str ts) x.
Proof.
  intros Ho Hs. rewrite <- (similarity_run ops (map as_str ts) Ho Hs).
  unfold py_query_tokens_return_similarity. by rewrite tokens_run.
Qed.

(** With vectors: once an id was overwritten and is gone, looking for the overwritten document
    raises, whatever else was done. *)
Theorem C101_py_overwritten (ops : list py_op) (doc : text) (x : Z) (t t' : list token) l1 l2 :
  ck <> KHashSet -> 0 < nb -> is_order order -> is_sort f64_ge sort ->
  py_life tokens x ops = l1 ++ Some t :: Some t' :: l2 ++ [None] -> tokens doc = Some t ->
  py_query_return_similarity lower shingles_str shingles_words hash bh ck hk order sort (prun new ops) doc = None.
Proof.
  intros Hk Hnb Ho Hs Hl Ht. apply C101_py_raises; [done..|]. rewrite Ht. exists x. rewrite Hl. split.
  { unfold now. change (Some t :: Some t' :: l2 ++ [None]) with ((Some t :: Some t' :: l2) ++ [None]).
    by rewrite app_assoc, last_snoc. }
  exists 0. split; [done|]. rewrite Hl.
  assert (Hin : t ∈ left_over (l1 ++ Some t :: Some t' :: l2 ++ [None])).
  { rewrite left_over_app by (by right).
    change (left_over (Some t :: Some t' :: l2 ++ [None])) with (t :: left_over (Some t' :: l2 ++ [None])).
    apply elem_of_app. right. left. }
  destruct ck; [done| |]; by exists t.
Qed.
End Python.

(** ** Examples *)
Definition life_ops : list (op N N) :=
  [ Insert 1 [1;2;3;4]; Insert 2 [1;2;7;7]; Insert 1 [5;6;3;4]; Remove 1; Remove 1;
    ParBulkInsertPairs [1;0]%nat [(1, [1;2;9;9]); (3, [5;6;7;7]); (1, [1;2;9;9])]; Remove 2;
    Insert 1 [1]; Remove 1 ]%N.

Example C101_example :
  whole 4 life_ops /\ well_sized 4 (spec_map 4 life_ops) /\
  life 4 1%N life_ops =
    [Some [1;2;3;4]; Some [5;6;3;4]; None; None; Some [1;2;9;9]; Some [1;2;9;9]; None]%N /\
  left_over (life 4 1%N life_ops) = [[1;2;3;4]; [1;2;9;9]]%N /\
  now (life 4 1%N life_ops) = None /\ left_over (life 4 2%N life_ops) = [] /\
  (* vectors: twice under the key of [1;2]; sets: only id 3 is left *)
  (fun b => default [] (hash_table b !! bhx [1;2]%N)) <$>
    bands (after KVec bhx 2 2 half life_ops) = [[1;1]; []]%N /\
  (fun b => (map_to_list (hash_table b)).*1) <$>
    bands (after KHashSet bhx 2 2 half life_ops) =
    (fun l => (map_to_list (hash_table l)).*1) <$>
    bands (after KHashSet bhx 2 2 half [Insert 3 [5;6;7;7]]%N) /\
  sizes <$> band_sizes (container KVec N) (after KVec bhx 2 2 half life_ops) = Some [2; 3] /\
  haunts KVec bhx 2 2 (life 4 1%N life_ops) [1;2;0;0]%N /\
  query_owned_return_similarity (container KVec N) bhx elements (PropsHistoryQuery.sort_of f64_ge)
    (after KVec bhx 2 2 half life_ops) [1;2;0;0]%N = None.
Proof.
  split; [apply (bool_decide_unpack _); vm_compute; exact I|].
  split; [apply (bool_decide_unpack _); vm_compute; exact I|].
  split; [vm_compute; reflexivity|]. split; [vm_compute; reflexivity|].
  split; [vm_compute; reflexivity|]. split; [vm_compute; reflexivity|].
  split; [vm_compute; reflexivity|]. split; [vm_compute; reflexivity|].
  split; [vm_compute; reflexivity|].
  split; [|vm_compute; reflexivity].
  exists 0. split; [lia|]. exists [1;2;3;4]%N. split; [|vm_compute; reflexivity].
  change (left_over (life 4 1%N life_ops)) with [[1;2;3;4]; [1;2;9;9]]%N. left.
Qed.

Definition py_ops : list py_op :=
  [ InsertDocument 1 doc_a; InsertTokens 2 [doc_c]; InsertDocument 1 doc_c; PyRemove 2; PyRemove 1 ].
Notation py_toks := (doc_tokens ex_lower ex_shingles ex_shingles WhiteSpace false).

(** The hypotheses of [C101_py_overwritten]. *)
Example C101_py_example :
  (exists t t', py_toks doc_a = Some t /\ py_life py_toks 1 py_ops = [] ++ Some t :: Some t' :: [] ++ [None]) /\
  py_life py_toks 2 py_ops = [Some [as_str doc_c]; None] /\
  py_query ex_lower ex_shingles ex_shingles ex_token ex_bh KVec MinHasher32 elements
    (py_run ex_lower ex_shingles ex_shingles ex_token ex_bh KVec MinHasher32
       (py_make ex_draws KVec half 4 2 None None None) py_ops) doc_a = Some [].
Proof.
  split; [eexists _, _; split; vm_compute; reflexivity|].
  split; vm_compute; reflexivity.
Qed.

(** The recipe of [C101_set_exorcism] does not help with vectors. *)
Theorem C101_vec_exorcism_refuted :
  exists (ops : list (op N N)) (s : list N),
    length s = 4 /\ now (life 4 1%N ops) = None /\
    haunts KVec bhx 2 2 (life 4 1%N (ops ++ [Insert 1 s; Remove 1]))%N s /\
    query_owned_return_similarity (container KVec N) bhx elements (PropsHistoryQuery.sort_of f64_ge)
      (after KVec bhx 2 2 half (ops ++ [Insert 1 s; Remove 1]))%N s = None /\
    query_owned_return_similarity (container KHashSet N) bhx elements (PropsHistoryQuery.sort_of f64_ge)
      (after KHashSet bhx 2 2 half (ops ++ [Insert 1 s; Remove 1]))%N s = Some [].
Proof.
  exists [Insert 1 [1;2;3;4]; Insert 1 [5;6;3;4]; Remove 1]%N, [1;2;3;4]%N.
  split; [reflexivity|]. split; [vm_compute; reflexivity|].
  split; [|split; vm_compute; reflexivity].
  exists 0. split; [lia|]. exists [1;2;3;4]%N. split; [|reflexivity].
  match goal with |- _ ∈ ?l => let l' := eval vm_compute in l in change l with l' end. left.
Qed.

(** Removing every id does not empty the tables. *)
Theorem C101_emptied_refuted :
  exists ops : list (op N N), whole 4 ops /\ spec_map 4 ops = ∅ /\
    sizes <$> band_sizes (container KHashSet N) (after KHashSet bhx 2 2 half ops) = Some [1; 0].
Proof.
  exists [Insert 1 [1;2;3;4]; Insert 1 [5;6;3;4]; Remove 1]%N.
  split; [apply (bool_decide_unpack _); vm_compute; exact I|].
  split; [|vm_compute; reflexivity].
  apply map_empty. intros x. unfold spec_map. simpl.
  destruct (decide (x = 1%N)) as [->|]; [apply lookup_delete|].
  rewrite lookup_delete_ne by done. rewrite !lookup_insert_ne by done. apply lookup_empty.
Qed.
Print Assumptions C101_count.
Print Assumptions C101_keys.
Print Assumptions C101_band_sizes.
Print Assumptions C101_query.
Print Assumptions C101_similarity_panics.
Print Assumptions C101_vec_forever.
Print Assumptions C101_set_exorcism.
Print Assumptions C101_py_query.
Print Assumptions C101_py_query_tokens.
Print Assumptions C101_py_raises.
Print Assumptions C101_py_raises_tokens.
Print Assumptions C101_py_overwritten.
Print Assumptions C101_vec_exorcism_refuted.
Print Assumptions C101_emptied_refuted.
