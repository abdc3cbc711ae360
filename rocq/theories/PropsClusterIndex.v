(** Property C68: clustering the documents of a MinHash index.

    [after kind bh nb bw th ops] is the index after any history of calls, [m] the map from ids to
    signatures the history stands for; [order] is the iteration order of the sets it returns. *)
From stdpp Require Import base list gmap.
From Coq Require Import NArith.
From Verif Require Import Base Par Float Container MinHashIndex SpecIndex ExampleIndex SerialClusterer SerialClustererFacts
  ParallelClusterer ParallelClustererFacts SpecParallel ClusterIndexFacts PropsSerialClusterer PropsParallelClusterer.
Local Open Scope nat_scope.

Section C68.
Context {T : Type} `{!EqDecision T} {P : Type} `{Countable P} (kind : container_kind)
    (bh : list T -> N) (nb bw : nat) (th : f64) (ops : list (op P T)) (order : gset P -> list P).
Context (Ho : is_order order).
Notation m := (spec_map (nb * bw) ops).
Context (Hw : well_sized (nb * bw) m).
Notation search := (fun p => order <$> query_index_query (container kind P) bh (after kind bh nb bw th ops) p).

Lemma clusters_seeded k points cells m' cs k' : run_cluster search k points cells = ((m', Some cs), k') ->
  seeded kind bh nb bw th ops order cells points cs /\
  (forall c, c ∈ cs -> min_cluster_size k < length (c_points c)).
Proof.
  intros E. destruct (C43_serial_clusters search k points cells) as (m2 & cs2 & E2 & _ & _ & Hn & _ & Hs).
  { intros p _. by apply ask_total. }
  rewrite E in E2. injection E2 as -> -> ->. done.
Qed.

(** The call does not panic. Around each cluster there is a given document to which all members
    are similar; two members differ at most where one of them differs from it. *)
Theorem C68_serial (k : clusterer) (points : list P) (cells : gmap P N) : exists m' cs,
  run_cluster search k points cells = ((m', Some cs), k) /\
  forall c, c ∈ cs -> exists p sp, p ∈ points /\ cells !! p = None /\ m !! p = Some sp /\
    (forall x, x ∈ c_points c -> exists sx, m !! x = Some sx /\ f64_ge (sim sx sp) th = true) /\
    (forall x y sx sy, x ∈ c_points c -> y ∈ c_points c -> m !! x = Some sx -> m !! y = Some sy ->
       agreements sx sp + agreements sy sp <= agreements sx sy + nb * bw).
Proof.
  destruct (C43_serial_clusters search k points cells) as (m' & cs & E & _ & _ & Hn & _ & Hs).
  { intros p _. by apply ask_total. }
  exists m', cs. split; [done|]. intros c Hc. pose proof (Hn c Hc) as Hn'. apply elem_of_list_lookup in Hc as [i Hi].
  apply (cluster_seed kind bh nb bw th ops order Ho Hw cells points cs i c Hs Hi). intros E0. rewrite E0 in Hn'. cbn in Hn'. lia.
Qed.

(** With [min_cluster_size = 0] every free given document of the index gets into a cluster. *)
Theorem C68_all_assigned (points : list P) (cells m' : gmap P N) cs k' (p : P) :
  0 < nb -> 0 < bw -> (N.of_nat (nb * bw) <= 2 ^ 53)%N -> f64_ge f64_one th = true ->
  run_cluster search (clusterer_new 0) points cells = ((m', Some cs), k') ->
  p ∈ points -> is_Some (m !! p) -> is_Some (m' !! p).
Proof.
  intros H1 H2 H3 H4 E Hp Hs. destruct (ask_self kind bh nb bw th ops order Ho Hw p H1 H2 H3 H4 Hs) as (found & Ef & Hin).
  destruct (C44_serial_maximal search (clusterer_new 0) points cells m' cs k' p found) as [?|Hl]; try done.
  { intros q _. by apply ask_total. }
  destruct (m' !! p) as [a|] eqn:Ea; [by eexists|]. exfalso.
  assert (Hf : p ∈ filter (fun x => m' !! x = None) found) by by apply elem_of_list_filter.
  cbn in Hl. destruct (filter _ found); [by apply elem_of_nil in Hf|cbn in Hl; lia].
Qed.

(** After a clean history documents with the same signature get into the same cluster. *)
Theorem C68_duplicates (k : clusterer) (points : list P) (cells m' : gmap P N) cs k' (x y : P) (s : list T) :
  clean (nb * bw) ops -> run_cluster search k points cells = ((m', Some cs), k') ->
  m !! x = Some s -> m !! y = Some s -> cells !! x = None -> cells !! y = None ->
  forall c, c ∈ cs -> x ∈ c_points c <-> y ∈ c_points c.
Proof.
  intros Hc E Hx Hy Hcx Hcy c [i Hi]%elem_of_list_lookup. destruct (clusters_seeded _ _ _ _ _ _ E) as [Hs _].
  by apply (duplicates_together kind bh nb bw th ops order Ho Hw cells points cs x y s Hc Hs Hx Hy Hcx Hcy i c Hi).
Qed.

(** After a clean history each cluster has a representative, and no representative is an answer to
    the query for another: deduplication leaves no reported duplicates. *)
Theorem C68_representatives (k : clusterer) (points : list P) (cells m' : gmap P N) cs k' :
  clean (nb * bw) ops -> run_cluster search k points cells = ((m', Some cs), k') ->
  exists reps : list (P * list T), length reps = length cs /\
    (forall i c p sp, cs !! i = Some c -> reps !! i = Some (p, sp) -> p ∈ points /\ m !! p = Some sp /\
      (0 < nb -> 0 < bw -> (N.of_nat (nb * bw) <= 2 ^ 53)%N -> f64_ge f64_one th = true -> p ∈ c_points c)) /\
    (forall i j p sp q sq, i <> j -> reps !! i = Some (p, sp) -> reps !! j = Some (q, sq) ->
      ~ expected_answer nb bw bh th m sp q).
Proof.
  intros Hc E. destruct (clusters_seeded _ _ _ _ _ _ E) as [Hs Hn].
  apply (seeds_apart kind bh nb bw th ops order Ho Hw cells points cs Hc Hs).
  intros c Hin E0. apply Hn in Hin. rewrite E0 in Hin. cbn in Hin. lia.
Qed.

(** The parallel clusterer, in any state of any interleaving without undefined behaviour: around
    each cluster returned so far there is a document of the thread's chunk. *)
Theorem C68_parallel (min : nat) (checks : bool) (m0 : memory P) (chunks : list (list P)) (schedule : list nat) :
  (forall p a, ParallelClusterer.cells m0 !! p = Some a ->
    (a <= sequence m0)%N /\ boxes m0 !! a = Some (Box COMMITTED false)) ->
  let s := run_schedule search min checks (System m0 (cluster_slice_start search <$> chunks) false) schedule in
  undefined s = false ->
  forall i t ch a own, threads s !! i = Some t -> chunks !! i = Some ch -> (a, own) ∈ clusters t ->
  exists p, p ∈ ch /\
    forall x, x ∈ own -> exists sp sx, m !! p = Some sp /\ m !! x = Some sx /\ f64_ge (sim sx sp) th = true /\
      forall y sy, y ∈ own -> m !! y = Some sy -> agreements sx sp + agreements sy sp <= agreements sx sy + nb * bw.
Proof.
  intros Hg s Hu i t ch a own Ht Hch Hin.
  destruct (C47_interleavings search min checks m0 chunks schedule) as (_ & Hcl & _); [|done|done|].
  { intros p found Hf. destruct (ask_total kind bh nb bw th ops order Ho Hw p) as (f & Hf' & Hnd). unfold ask in Hf'. congruence. }
  destruct (Hcl i t ch a own Ht Hch Hin) as (_ & _ & _ & p & found & Hp & Hf & Hsub).
  exists p. split; [done|]. intros x Hx.
  destruct (ask_sound kind bh nb bw th ops order Ho Hw p found x Hf) as (sp & sx & Hsp & Hsx & Hge).
  { eapply elem_of_submseteq; [exact Hx|]. by apply sublist_submseteq. }
  exists sp, sx. split; [done|]. split; [done|]. split; [done|]. intros y sy _ Hsy.
  rewrite <- (Hw _ _ Hsp). apply agree_triangle; rewrite (Hw _ _ Hsp); by eapply Hw.
Qed.
End C68.

(** Overwriting an id may separate it from a document with the same signature. *)
Theorem C68_duplicates_refuted : exists (ops : list (op N N)) (points : list N) m' cs c (x y : N),
  well_sized 4 (spec_map 4 ops) /\
  (run_cluster (fun p => elements <$> query_index_query (container KVec N) bhx (after KVec bhx 2 2 half ops) p)
    (clusterer_new 1) points ∅).1 = (m', Some cs) /\
  spec_map 4 ops !! x = spec_map 4 ops !! y /\ is_Some (spec_map 4 ops !! x) /\
  c ∈ cs /\ x ∈ c_points c /\ y ∉ c_points c.
Proof.
  exists [Insert 1 [1;9;8;8]; Insert 1 [1;2;3;4]; Insert 2 [1;2;3;4]; Insert 3 [1;9;3;9]]%N, [3]%N.
  eexists _, _, _, 1%N, 2%N. split; [apply (bool_decide_unpack _); vm_compute; exact I|].
  split; [vm_compute; reflexivity|]. split; [vm_compute; reflexivity|]. split; [vm_compute; by eexists|].
  split; [left|]. cbn. split; set_solver.
Qed.

(** Ids 1 to 4 with the signatures of ExampleIndex.v, one of them twice. *)
Example C68_example :
  let ops := (clean_ops ++ [Insert 7 [7;7;3;4]; Insert 8 [1;2;3;5]; Insert 9 [5;5;5;5]])%N in
  let search p := elements <$> query_index_query (container KVec N) bhx (after KVec bhx 2 2 half ops) p in
  is_order (fun s : gset N => elements s) /\ clean 4 ops /\
  (run_cluster search (clusterer_new 0) [4;2;9;1;5]%N ∅).1.2 = Some [Cluster 1 [1;7;4]; Cluster 2 [3;2;8]; Cluster 3 [9]]%N.
Proof.
  cbn zeta. split; [by intros s|]. split; [apply (bool_decide_unpack _); vm_compute; exact I|]. vm_compute. reflexivity.
Qed.
Print Assumptions C68_serial.
Print Assumptions C68_all_assigned.
Print Assumptions C68_duplicates.
Print Assumptions C68_representatives.
Print Assumptions C68_parallel.
Print Assumptions C68_duplicates_refuted.
