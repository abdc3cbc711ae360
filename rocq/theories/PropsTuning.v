(** C104: how the answers depend on the parameters of an index. *)
From stdpp Require Import base list gmap strings.
From Coq Require Import NArith ZArith Lia.
From Verif Require Import Base Float Container MinHashIndex SpecIndex SpecHistory SpecHistoryQuery
  ExampleIndex PropsIndex PropsHistory SortFacts MinHasher Text StringIndex PyTokenizer PyMinHash SpecPy PropsPy
  SpecLife LifeFacts PropsLife SpecTuning TuningFacts SimHashIndex SpecSimHash.
From Verif Require PropsSimHash.
Local Open Scope nat_scope.

(** ** The threshold *)

(** Of two indexes with the same calls, the one with the higher threshold answers exactly the
    answers of the other that reach it; both panic together. *)
Theorem C104_threshold {T} `{!EqDecision T} {Id} `{Countable Id}
    (k : container_kind) (bh : list T -> N) (nb bw : nat) (th th' : f64)
    (ops : list (op Id T)) (q : list T) :
  f64_ge th' th = true ->
  match query (container k Id) bh (after k bh nb bw th ops) q,
        query (container k Id) bh (after k bh nb bw th' ops) q with
  | Some low, Some high => forall x, x ∈ high <->
      x ∈ low /\ exists s, spec_map (nb * bw) ops !! x = Some s /\ f64_ge (sim s q) th' = true
  | None, None => True
  | _, _ => False
  end.
Proof. exact (threshold_query k bh nb bw th th' ops q). Qed.

(** ** The number asked for *)

(** The distances of [query_top_k] for fewer answers are a beginning of those for more, whatever
    the orders in which the two calls visit and sort the candidates, and whatever the
    thresholds. *)
Theorem C104_top_k {T} `{!EqDecision T} {Id} `{Countable Id}
    (k : container_kind) (bh : list T -> N) (nb bw : nat) (th th' : f64)
    (ops : list (op Id T)) (q : list T) order order' sort sort' (j j' : nat) l l' :
  0 < length q -> (N.of_nat (length q) < 2 ^ 51)%N ->
  is_order order -> is_order order' ->
  is_sort (fun a c => f64_ge c a) sort -> is_sort (fun a c => f64_ge c a) sort' ->
  j <= j' ->
  query_top_k (container k Id) bh order sort (after k bh nb bw th ops) q j = Some l ->
  query_top_k (container k Id) bh order' sort' (after k bh nb bw th' ops) q j' = Some l' ->
  l.*2 = take j l'.*2.
Proof. exact (top_k_prefix k bh nb bw th th' ops q order order' sort sort' j j' l l'). Qed.

(** ** The width of the bands *)

(** When every band contains one of the other index. *)
Theorem C104_multiple (nb c bw : nat) : 0 < c -> contains_bands nb (c * bw) (nb * c) bw.
Proof. exact (contains_multiple nb c bw). Qed.
Theorem C104_wider (nb bw nb' bw' : nat) :
  nb * bw = nb' * bw' -> 0 < bw' -> 2 * bw' <= bw + 1 -> contains_bands nb bw nb' bw'.
Proof. exact (contains_wider nb bw nb' bw'). Qed.

(** The index with the smaller bands then loses no answer (vectors, any history), ... *)
Theorem C104_width {T} `{!EqDecision T} {Id} `{Countable Id}
    (k : container_kind) (bh bh' : list T -> N) (nb bw nb' bw' : nat) (th : f64)
    (ops : list (op Id T)) (q : list T) :
  k <> KHashSet -> contains_bands nb bw nb' bw' -> collision_free bw bh ->
  whole (nb * bw) ops -> Forall no_bulk_remove ops ->
  well_sized (nb * bw) (spec_map (nb * bw) ops) -> length q = nb * bw ->
  exists S S', query (container k Id) bh (after k bh nb bw th ops) q = Some S /\
    query (container k Id) bh' (after k bh' nb' bw' th ops) q = Some S' /\ S ⊆ S'.
Proof. exact (width_query k bh bh' nb bw nb' bw' th ops q). Qed.

(** ... for clean histories with all containers ... *)
Theorem C104_width_clean {T} `{!EqDecision T} {Id} `{Countable Id}
    (k k' : container_kind) (bh bh' : list T -> N) (nb bw nb' bw' : nat) (th : f64)
    (ops : list (op Id T)) (q : list T) :
  contains_bands nb bw nb' bw' -> collision_free bw bh -> clean (nb * bw) ops -> length q = nb * bw ->
  exists S S', query (container k Id) bh (after k bh nb bw th ops) q = Some S /\
    query (container k' Id) bh' (after k' bh' nb' bw' th ops) q = Some S' /\ S ⊆ S'.
Proof. exact (width_clean k k' bh bh' nb bw nb' bw' th ops q). Qed.

(** ... [query_one] answers at least as well ... *)
Theorem C104_width_one {T} `{!EqDecision T} {Id} `{Countable Id}
    (k : container_kind) (bh bh' : list T -> N) (nb bw nb' bw' : nat) (th : f64)
    (ops : list (op Id T)) (q : list T) order order' (x : Id) (v : f64) :
  f64_valid th = true -> k <> KHashSet -> contains_bands nb bw nb' bw' -> collision_free bw bh ->
  whole (nb * bw) ops -> Forall no_bulk_remove ops ->
  well_sized (nb * bw) (spec_map (nb * bw) ops) -> length q = nb * bw ->
  is_order order -> is_order order' ->
  query_one (container k Id) bh order (after k bh nb bw th ops) q = Some (Some (x, v)) ->
  exists x' v', query_one (container k Id) bh' order' (after k bh' nb' bw' th ops) q = Some (Some (x', v')) /\
    f64_gt v v' = false.
Proof. exact (width_query_one k bh bh' nb bw nb' bw' th ops q order order' x v). Qed.

(** ... but it panics at least as often as well. *)
Theorem C104_width_panics {T} `{!EqDecision T} {Id} `{Countable Id}
    (k : container_kind) (bh bh' : list T -> N) (nb bw nb' bw' : nat) (th : f64)
    (ops : list (op Id T)) (q : list T) order sort :
  k <> KHashSet -> contains_bands nb bw nb' bw' -> collision_free bw bh ->
  whole (nb * bw) ops -> Forall no_bulk_remove ops ->
  well_sized (nb * bw) (spec_map (nb * bw) ops) -> length q = nb * bw ->
  is_order order -> is_sort f64_ge sort ->
  query_owned_return_similarity (container k Id) bh order sort (after k bh nb bw th ops) q = None ->
  query_owned_return_similarity (container k Id) bh' order sort (after k bh' nb' bw' th ops) q = None.
Proof. exact (width_panics k bh bh' nb bw nb' bw' th ops q order sort). Qed.

(** The condition cannot be weakened: otherwise one document is enough to lose an answer. *)
Theorem C104_width_only (k k' : container_kind) (bh' : list N -> N) (nb bw nb' bw' : nat) :
  0 < nb * bw -> (N.of_nat (nb * bw) <= 2 ^ 53)%N -> nb * bw = nb' * bw' -> collision_free bw' bh' ->
  ~ contains_bands nb bw nb' bw' ->
  exists (s q : list N) (th : f64), length s = nb * bw /\ length q = nb * bw /\ forall bh,
    (exists S, query (container k N) bh (after k bh nb bw th [Insert 1%N s]) q = Some S /\ 1%N ∈ S) /\
    (exists S, query (container k' N) bh' (after k' bh' nb' bw' th [Insert 1%N s]) q = Some S /\ 1%N ∉ S).
Proof. exact (width_only k k' bh' nb bw nb' bw'). Qed.

(** ** The simhash index *)

(** A smaller distance answers exactly the answers of the larger that are within it; the number
    of blocks does not matter. *)
Theorem C104_simhash {Id} `{Countable Id} (W nb nb' d d' : nat) (ops : list (sop Id)) (q : N) :
  1 < W -> d <= nb <= W -> d' <= nb' <= W -> d <= d' ->
  Forall (sop_fits W) ops -> (q < 2 ^ N.of_nat W)%N ->
  exists m m' S S', safter W nb d ops = Some m /\ safter W nb' d' ops = Some m' /\
    squery m q = Some S /\ squery m' q = Some S' /\
    forall id, id ∈ S <-> id ∈ S' /\ exists s, sspec_map ops !! id = Some s /\ hamming W q s < d.
Proof.
  intros HW Hd Hd' Hle Hops Hq.
  destruct (PropsSimHash.C28_query_exact W nb d ops q HW Hd Hops Hq) as (m & S & Em & ES & _ & HS).
  destruct (PropsSimHash.C28_query_exact W nb' d' ops q HW Hd' Hops Hq) as (m' & S' & Em' & ES' & _ & HS').
  exists m, m', S, S'. split; [done|]. split; [done|]. split; [done|]. split; [done|].
  intros id. rewrite HS, HS'. split; [|naive_solver].
  intros (s & Hs & Hh). split; [|eauto]. exists s. split; [done|lia].
Qed.

(** A larger distance does not change the distance [query_one] reports. *)
Theorem C104_simhash_one {Id} `{Countable Id} (W nb nb' d d' : nat) (ops : list (sop Id)) (q : N)
    (order order' : gset Id -> list Id) m m' (id : Id) (k : nat) :
  1 < W -> d <= nb <= W -> d' <= nb' <= W -> d <= d' ->
  Forall (sop_fits W) ops -> (q < 2 ^ N.of_nat W)%N -> is_order order -> is_order order' ->
  safter W nb d ops = Some m -> safter W nb' d' ops = Some m' ->
  squery_one order m q = Some (Some (id, k)) ->
  exists id', squery_one order' m' q = Some (Some (id', k)).
Proof.
  intros HW Hd Hd' Hle Hops Hq Ho Ho' Em Em' E.
  destruct (PropsSimHash.C30_query_one W nb d ops q order HW Hd Hops Hq Ho) as (m1 & r & E1 & Er & Hr).
  destruct (PropsSimHash.C30_query_one W nb' d' ops q order' HW Hd' Hops Hq Ho') as (m2 & r' & E2 & Er' & Hr').
  rewrite Em in E1. injection E1 as <-. rewrite Em' in E2. injection E2 as <-.
  rewrite E in Er. injection Er as <-. destruct Hr as (s & Hs & -> & Hlt & Hmin).
  rewrite Er'. destruct r' as [[id' k']|].
  - destruct Hr' as (s' & Hs' & -> & _ & Hmin'). exists id'. do 3 f_equal.
    pose proof (Hmin _ _ Hs'). pose proof (Hmin' _ _ Hs). lia.
  - pose proof (Hr' _ _ Hs). lia.
Qed.

(** ** The class of the Python extension: any calls at all *)
Section Python.
Context (lower : text -> text)
        (shingles_str : list N -> nat -> option (list (list N)))
        (shingles_words : list (list N) -> nat -> option (list (list (list N)))).
Context (hash : token -> N) (draws : N -> nat -> nat -> N).
Context (ck : container_kind) (hk : hasher_kind) (order order' : gset Z -> list Z).
Context (an : option string) (lc : option bool) (range : option (nat * nat)).
Notation tokens :=
  (doc_tokens lower shingles_str shingles_words (tokenizer_new (default "word"%string an) range) (default false lc)).
Notation new := (fun th nb bw => py_make draws ck th nb bw an lc range).
Notation prun := (fun bh => py_run lower shingles_str shingles_words hash bh ck hk).
Notation pquery := (fun bh o => py_query lower shingles_str shingles_words hash bh ck hk o).
Notation sg := (fun n => sig_tokens hk hash draws n).

Theorem C104_py_threshold (bh : list N -> N) (th th' : f64) (nb bw : nat) (ops : list py_op) (doc : text) (t : list token) :
  is_order order -> is_order order' -> f64_ge th' th = true -> tokens doc = Some t ->
  exists l l', pquery bh order (prun bh (new th nb bw) ops) doc = Some l /\
    pquery bh order' (prun bh (new th' nb bw) ops) doc = Some l' /\
    forall x, x ∈ l' <-> x ∈ l /\ exists t', now (py_life tokens x ops) = Some t' /\
      f64_ge (sim (sg (nb * bw) t') (sg (nb * bw) t)) th' = true.
Proof.
  intros Ho Ho' Hth Ht.
  destruct (C101_py_query lower shingles_str shingles_words hash draws bh ck hk order nb bw th an lc range ops doc t Ho Ht)
    as (l & E & _ & Hl).
  destruct (C101_py_query lower shingles_str shingles_words hash draws bh ck hk order' nb bw th' an lc range ops doc t Ho' Ht)
    as (l' & E' & _ & Hl').
  exists l, l'. split; [done|]. split; [done|]. intros x. rewrite Hl, Hl'. split.
  - intros (t' & Hn & Hg & Hh). split; [|eauto]. exists t'. split; [done|]. split; [|done].
    by eapply f64_ge_trans.
  - intros ((t1 & Hn1 & _ & Hh) & t2 & Hn2 & Hg). exists t2. done.
Qed.

(** The signatures are the same, so that the same holds for the number and the size of bands. *)
Theorem C104_py_width (bh bh' : list N -> N) (th : f64) (nb bw nb' bw' : nat) (ops : list py_op) (doc : text) (t : list token) :
  ck <> KHashSet -> contains_bands nb bw nb' bw' -> collision_free bw bh ->
  is_order order -> is_order order' -> tokens doc = Some t ->
  exists l l', pquery bh order (prun bh (new th nb bw) ops) doc = Some l /\
    pquery bh' order' (prun bh' (new th nb' bw') ops) doc = Some l' /\ l ⊆ l'.
Proof.
  intros Hk [Hn' Hc] Hf Ho Ho' Ht.
  destruct (C101_py_query lower shingles_str shingles_words hash draws bh ck hk order nb bw th an lc range ops doc t Ho Ht)
    as (l & E & _ & Hl).
  destruct (C101_py_query lower shingles_str shingles_words hash draws bh' ck hk order' nb' bw' th an lc range ops doc t Ho' Ht)
    as (l' & E' & _ & Hl').
  exists l, l'. split; [done|]. split; [done|]. intros x Hx. apply Hl in Hx as (t' & Hn & Hg & Hh).
  apply Hl'. exists t'. split; [done|]. rewrite <- Hn'. split; [done|].
  destruct Hh as (i & Hi & Hr). destruct (Hc i Hi) as (i' & Hi' & Hlo & Hup).
  exists i'. split; [done|]. rewrite <- Hn'.
  assert (exists a, a ∈ left_over (py_life tokens x ops) /\
    bh (nth_band bw i (sg (nb * bw) a)) = bh (nth_band bw i (sg (nb * bw) t))) as (a & Ha & Hm).
  { destruct ck; [done| |]; exact Hr. }
  assert (bh' (nth_band bw' i' (sg (nb * bw) a)) = bh' (nth_band bw' i' (sg (nb * bw) t))) as Hm'.
  { rewrite !(nth_band_sub bw i bw' i') by done. do 3 f_equal. apply Hf; [| |done]; unfold nth_band; rewrite take_length, drop_length.
    - rewrite (proj2 (PyFacts.sg_ok hash draws hk nb bw _)). nia.
    - rewrite (proj2 (PyFacts.sg_ok hash draws hk nb bw _)). nia. }
  destruct ck; [done| |]; by exists a.
Qed.
End Python.

(** ** Examples *)
(** One band of four hashes, or two of two: id 1 was overwritten and removed several times. *)
Definition tuned_ops : list (op N N) :=
  [ Insert 1 [1;2;3;4]; Insert 1 [1;2;9;9]; Remove 1; Insert 1 [9;9;3;4]; Remove 1;
    Insert 1 [1;7;3;8]; Insert 2 [1;2;5;5]; ParBulkInsertPairs [1]%nat [(3, [1;2;3;4])] ]%N.

Example C104_example :
  whole 4 tuned_ops /\ Forall no_bulk_remove tuned_ops /\ well_sized 4 (spec_map 4 tuned_ops) /\
  contains_bands 1 4 2 2 /\ collision_free 4 bh_injective /\ f64_ge f64_one half = true /\
  elements <$> query (container KVec N) bh_injective (after KVec bh_injective 1 4 half tuned_ops) [1;2;3;4]%N
    = Some [1;3]%N /\
  elements <$> query (container KVec N) bhx (after KVec bhx 2 2 half tuned_ops) [1;2;3;4]%N = Some [1;3;2]%N /\
  elements <$> query (container KVec N) bhx (after KVec bhx 2 2 f64_one tuned_ops) [1;2;3;4]%N = Some [3]%N /\
  query_one (container KVec N) bhx elements (after KVec bhx 2 2 half tuned_ops) [1;2;3;4]%N
    = Some (Some (3%N, f64_one)).
Proof.
  split; [apply (bool_decide_unpack _); vm_compute; exact I|].
  split; [repeat constructor|].
  split; [apply (bool_decide_unpack _); vm_compute; exact I|].
  split; [apply (contains_multiple 1 2 2); lia|].
  split; [apply bh_injective_ok|].
  split; [vm_compute; reflexivity|]. split; [vm_compute; reflexivity|].
  split; [vm_compute; reflexivity|]. split; vm_compute; reflexivity.
Qed.

(** Two visits of the candidates in opposite orders: the ids of equal distance are exchanged. *)
Example C104_top_k_example :
  let m := after KVec bhx 2 2 half tuned_ops in
  query_top_k (container KVec N) bhx elements sort_asc m [1;2;3;4]%N 2 = Some [(3, f64_of_N 0); (1, half)]%N /\
  query_top_k (container KVec N) bhx (fun s => rev (elements s)) sort_asc m [1;2;3;4]%N 3
    = Some [(3, f64_of_N 0); (2, half); (1, half)]%N.
Proof. vm_compute. split; reflexivity. Qed.

Example C104_simhash_example :
  (m ← safter 64 6 3 PropsSimHash.ex_sops; elements <$> squery m 511%N) = Some [1; 3]%N /\
  (m ← safter 64 9 8 PropsSimHash.ex_sops; elements <$> squery m 511%N) = Some [1; 3; 2]%N /\
  (m ← safter 64 6 3 PropsSimHash.ex_sops; squery_one elements m 511%N) = Some (Some (1%N, 1)) /\
  (m ← safter 64 9 8 PropsSimHash.ex_sops; squery_one (fun s => rev (elements s)) m 511%N) = Some (Some (3%N, 1)).
Proof. vm_compute. split_and!; reflexivity. Qed.

(** Python: two bands of four hashes, four of two; the class as it is made by default. *)
Notation py_toks := (doc_tokens ex_lower ex_shingles ex_shingles WhiteSpace false).
Example C104_py_example :
  (exists t, py_toks doc_a = Some t) /\
  py_query ex_lower ex_shingles ex_shingles ex_token bh_injective KVec MinHasher32 elements
    (py_run ex_lower ex_shingles ex_shingles ex_token bh_injective KVec MinHasher32
       (py_make ex_draws KVec (f64_of_N 0) 2 4 None None None)
       [InsertDocument 1 doc_a; InsertDocument 2 doc_c]) doc_a = Some [1]%Z.
Proof. split; [eexists; vm_compute; reflexivity|vm_compute; reflexivity]. Qed.

(** With hash sets narrower bands can lose an answer. *)
Theorem C104_width_set_refuted :
  exists (ops : list (op N N)) (q : list N),
    whole 4 ops /\ Forall no_bulk_remove ops /\ well_sized 4 (spec_map 4 ops) /\
    elements <$> query (container KHashSet N) bh_injective (after KHashSet bh_injective 1 4 half ops) q = Some [1]%N /\
    elements <$> query (container KHashSet N) bh_injective (after KHashSet bh_injective 2 2 half ops) q = Some [].
Proof.
  exists [ Insert 1 [1;2;3;4]; Insert 1 [1;2;9;9]; Remove 1; Insert 1 [9;9;3;4]; Remove 1; Insert 1 [1;7;3;8] ]%N, [1;2;3;4]%N.
  split; [apply (bool_decide_unpack _); vm_compute; exact I|].
  split; [repeat constructor|].
  split; [apply (bool_decide_unpack _); vm_compute; exact I|].
  split; vm_compute; reflexivity.
Qed.

(** A bulk removal that names an absent id can have narrower bands lose an answer with vectors, too. *)
Theorem C104_width_bulk_remove_refuted :
  exists (ops : list (op N N)) (q : list N),
    whole 4 ops /\ well_sized 4 (spec_map 4 ops) /\
    elements <$> query (container KVec N) bh_injective (after KVec bh_injective 1 4 half ops) q = Some [1]%N /\
    elements <$> query (container KVec N) bh_injective (after KVec bh_injective 2 2 half ops) q = Some [].
Proof.
  exists [ Insert 1 [1;2;3;4]; Insert 1 [8;8;8;8]; Remove 1; Insert 2 [1;2;9;9]; BulkRemove [] [1;2];
           Insert 2 [9;9;3;4]; BulkRemove [] [1;2]; Insert 1 [1;7;3;8] ]%N, [1;2;3;4]%N.
  split; [apply (bool_decide_unpack _); vm_compute; exact I|].
  split; [apply (bool_decide_unpack _); vm_compute; exact I|].
  split; vm_compute; reflexivity.
Qed.

(** If the hashes of wide bands collide, narrower bands can lose an answer. *)
Theorem C104_width_collision_refuted :
  exists (bh : list N -> N) (ops : list (op N N)) (q : list N),
    clean 4 ops /\
    elements <$> query (container KVec N) bh (after KVec bh 1 4 half ops) q = Some [1]%N /\
    elements <$> query (container KVec N) bh_injective (after KVec bh_injective 2 2 half ops) q = Some [].
Proof.
  exists (fun _ => 0%N), [Insert 1 [1;7;3;8]]%N, [1;2;3;4]%N.
  split; [apply (bool_decide_unpack _); vm_compute; exact I|].
  split; vm_compute; reflexivity.
Qed.

(** Bands of four and of three hashes. *)
Example C104_width_only_example :
  ~ contains_bands 3 4 4 3 /\ contains_bands 2 3 3 2 /\
  elements <$> query (container KVec N) bh_injective
    (after KVec bh_injective 3 4 (f64_div (f64_of_N 1) (f64_of_N 3)) [Insert 1 [0;0;0;0;5;6;7;8;0;0;0;0]]%N)
    [1;2;3;4;5;6;7;8;9;10;11;12]%N = Some [1]%N /\
  elements <$> query (container KVec N) bh_injective
    (after KVec bh_injective 4 3 (f64_div (f64_of_N 1) (f64_of_N 3)) [Insert 1 [0;0;0;0;5;6;7;8;0;0;0;0]]%N)
    [1;2;3;4;5;6;7;8;9;10;11;12]%N = Some [].
Proof.
  split; [intros [_ Hc]; destruct (Hc 1) as (i & Hi & Hlo & Hup); lia|].
  split; [apply contains_wider; lia|]. split; vm_compute; reflexivity.
Qed.

Print Assumptions C104_threshold.
Print Assumptions C104_top_k.
Print Assumptions C104_multiple.
Print Assumptions C104_wider.
Print Assumptions C104_width.
Print Assumptions C104_width_clean.
Print Assumptions C104_width_one.
Print Assumptions C104_width_panics.
Print Assumptions C104_width_only.
Print Assumptions C104_simhash.
Print Assumptions C104_simhash_one.
Print Assumptions C104_py_threshold.
Print Assumptions C104_py_width.
Print Assumptions C104_width_set_refuted.
Print Assumptions C104_width_bulk_remove_refuted.
Print Assumptions C104_width_collision_refuted.
