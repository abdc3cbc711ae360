(** Properties C43-C45: the serial clusterer.

    [query] is the query index ([None] = its query panics); [m] are the cells of the points
    before the call, [m'] after it. *)
From stdpp Require Import base list gmap.
From Coq Require Import NArith.
From Verif Require Import Base Par Float Container MinHashIndex SpecIndex MinHashIndexFacts
  MinHashIndexFacts2 MinHashIndexThms ExampleIndex SerialClusterer SerialClustererFacts.
Local Open Scope nat_scope.

(** Points 1 to 8 in three groups; 5 is assigned from the start. *)
Definition ex_query (p : N) : option (list N) :=
  Some (if (p <=? 3)%N then [3;1;2]%N else if (p <=? 6)%N then [4;5;6]%N else [8;7]%N).
Definition ex_cells : gmap N N := {[ 5%N := 9%N ]}.
Definition ex_points : list N := [5;8;2;4;1;7]%N.

(** ** C43 *)
Theorem C43_serial_clusters {P} `{Countable P} (query : P -> option (list P)) (k : clusterer)
    (points : list P) (m : gmap P N) :
  (forall p, p ∈ points -> exists found, query p = Some found /\ NoDup found) ->
  exists m' cs, run_cluster query k points m = ((m', Some cs), k) /\
    NoDup (concat (c_points <$> cs)) /\
    (forall c x, c ∈ cs -> x ∈ c_points c -> m !! x = None /\ m' !! x = Some (c_id c)) /\
    (forall c, c ∈ cs -> min_cluster_size k < length (c_points c)) /\
    (forall x, (forall c, c ∈ cs -> x ∉ c_points c) -> m' !! x = m !! x) /\
    (* each cluster consists of all still unassigned points similar to an unassigned given point *)
    (forall i c, cs !! i = Some c ->
      let before := concat (c_points <$> take i cs) in
      exists p found, p ∈ points /\ m !! p = None /\ p ∉ before /\ query p = Some found /\
        c_points c = filter (fun x => m !! x = None /\ x ∉ before) found).
Proof.
  intros Hq. destruct (run_cluster_spec query k points m Hq) as (m' & cs & seq' & E & Hi & _).
  destruct Hi as [H1 H2 H3 H4 H5 H6 H7 H8].
  exists m', cs. split; [done|]. split; [done|]. split.
  { intros c x Hc Hx. split; [|by apply H4]. apply H2. rewrite elem_of_members. by exists c. }
  split.
  { intros c Hc. apply Nat.ltb_lt. by apply (proj1 (Forall_forall _ _) H3). }
  split.
  { intros x Hx. apply H5. intros (c & Hc & Hin)%elem_of_members. by apply (Hx c). }
  intros i c Hc. apply (H8 _ c (drop (S i) cs)). by rewrite take_drop_middle.
Qed.

(** A MinHash index as the query index: with right-sized signatures the hypothesis holds. *)
Theorem C43_minhash_index {T} `{!EqDecision T} {P} `{Countable P} (kind : container_kind)
    (bh : list T -> N) (nb bw : nat) (th : f64) (ops : list (op P T)) (order : gset P -> list P)
    (p : P) :
  is_order order -> well_sized (nb * bw) (spec_map (nb * bw) ops) ->
  exists found,
    order <$> query_index_query (container kind P) bh (after kind bh nb bw th ops) p = Some found /\
    NoDup found.
Proof.
  intros Ho Hw. unfold query_index_query. rewrite sigs_after.
  destruct (spec_map (nb * bw) ops !! p) as [s|] eqn:Es.
  - destruct (recall kind bh nb bw th ops s Hw (Hw _ _ Es)) as (S & -> & _).
    exists (order S). split; [done|]. rewrite (Ho S). apply NoDup_elements.
  - exists (order ∅). split; [done|]. rewrite (Ho ∅). apply NoDup_elements.
Qed.

(** Groups 1,2,3 and 4,6 are larger than 1; the group 7,8 too. *)
Example C43_example :
  (forall p, p ∈ ex_points -> exists found, ex_query p = Some found /\ NoDup found) /\
  (run_cluster ex_query (clusterer_new 1) ex_points ex_cells).1.2
  = Some [Cluster 1 [8;7]; Cluster 2 [3;1;2]; Cluster 3 [4;6]]%N /\
  (run_cluster ex_query (clusterer_new 2) ex_points ex_cells).1.2 = Some [Cluster 1 [3;1;2]]%N.
Proof.
  split; [|vm_compute; split; reflexivity].
  intros p _. unfold ex_query. eexists. split; [reflexivity|].
  destruct (p <=? 3)%N; [|destruct (p <=? 6)%N]; apply (bool_decide_unpack _); vm_compute; exact I.
Qed.
Print Assumptions C43_serial_clusters.
Print Assumptions C43_minhash_index.

(** A group of exactly [min_cluster_size] points is not made a cluster. *)
Theorem C43_min_cluster_size_refuted :
  exists (query : N -> option (list N)) (k : clusterer) (points : list N) (p : N) (found : list N),
    p ∈ points /\ query p = Some found /\ NoDup found /\ length found = min_cluster_size k /\
    0 < min_cluster_size k /\
    (run_cluster query k points ∅).1.2 = Some [].
Proof.
  exists (fun _ => Some [1;2]%N), (clusterer_new 2), [1;2]%N, 1%N, [1;2]%N.
  split; [by left|]. split; [done|]. split; [by repeat constructor; set_solver|].
  split; [done|]. split; [cbn; lia|]. vm_compute. reflexivity.
Qed.
Print Assumptions C43_min_cluster_size_refuted.

(** ** C44 *)
Theorem C44_serial_maximal {P} `{Countable P} (query : P -> option (list P)) (k : clusterer)
    (points : list P) (m m' : gmap P N) (cs : list (cluster P)) (k' : clusterer) (p : P)
    (found : list P) :
  (forall p, p ∈ points -> exists found, query p = Some found /\ NoDup found) ->
  run_cluster query k points m = ((m', Some cs), k') -> p ∈ points -> query p = Some found ->
  is_Some (m' !! p) \/ length (filter (fun x => m' !! x = None) found) <= min_cluster_size k.
Proof.
  intros Hq E Hp Hf. destruct (run_cluster_spec query k points m Hq) as (m2 & cs2 & s2 & E2 & _ & Hm).
  rewrite E in E2. injection E2 as -> -> ->.
  destruct (Hm p Hp) as [?|(f & Hf' & Hl)]; [by left|]. rewrite Hf in Hf'. injection Hf' as <-. by right.
Qed.

Example C44_example :
  let r := run_cluster ex_query (clusterer_new 2) ex_points ex_cells in
  map (fun p => (r.1.1 : gmap N N) !! p) ex_points = [Some 9; None; Some 1; None; Some 1; None]%N /\
  length (filter (fun x => (r.1.1 : gmap N N) !! x = None) [8;7]%N) = 2.
Proof. vm_compute. split; reflexivity. Qed.
Print Assumptions C44_serial_maximal.

(** ** C45 *)
Theorem C45_serial_ids {P} `{Countable P} (query : P -> option (list P)) (k : clusterer)
    (points : list P) (m m' : gmap P N) (cs : list (cluster P)) (k' : clusterer) :
  (forall p, p ∈ points -> exists found, query p = Some found /\ NoDup found) ->
  run_cluster query k points m = ((m', Some cs), k') ->
  k' = k /\
  (forall i c, cs !! i = Some c -> c_id c = (cluster_id_sequence k + 1 + N.of_nat i)%N) /\
  NoDup (c_id <$> cs).
Proof.
  intros Hq E. destruct (run_cluster_spec query k points m Hq) as (m2 & cs2 & s2 & E2 & Hi & _).
  rewrite E in E2. injection E2 as -> -> ->. split; [done|].
  pose proof (l_ids _ _ _ _ _ _ _ _ Hi) as Hids.
  assert (Hi' : forall i c, cs2 !! i = Some c -> c_id c = (cluster_id_sequence k + 1 + N.of_nat i)%N).
  { intros i c Hc. assert (Hlt := lookup_lt_Some _ _ _ Hc).
    assert (E1 : (c_id <$> cs2) !! i = Some (c_id c)) by by rewrite list_lookup_fmap, Hc.
    rewrite Hids, list_lookup_fmap, lookup_seq_lt in E1 by done. injection E1 as <-. lia. }
  split; [done|]. rewrite Hids. apply (NoDup_fmap_2_strong); [|apply NoDup_seq].
  intros x y _ _ Hxy. lia.
Qed.

Example C45_example :
  map c_id <$> (run_cluster ex_query (Clusterer 4 1) ex_points ex_cells).1.2 = Some [5;6;7]%N.
Proof. vm_compute. reflexivity. Qed.
Print Assumptions C45_serial_ids.

(** Two calls of one clusterer give the same id to two clusters that both stay alive. *)
Theorem C45_ids_reused_refuted :
  exists (query : N -> option (list N)) (k : clusterer) (ps1 ps2 : list N) m1 k1 m2 k2 c1 c2,
    run_cluster query k ps1 ∅ = ((m1, Some [c1]), k1) /\
    run_cluster query k1 ps2 m1 = ((m2, Some [c2]), k2) /\
    c_id c1 = c_id c2 /\ c_points c1 ≠ c_points c2 /\
    (forall x, x ∈ c_points c1 -> m2 !! x = Some (c_id c1)) /\
    (forall x, x ∈ c_points c2 -> m2 !! x = Some (c_id c1)).
Proof.
  exists ex_query, (clusterer_new 1), [1]%N, [8]%N.
  eexists _, _, _, _, _, _. split; [vm_compute; reflexivity|]. split; [vm_compute; reflexivity|].
  split; [reflexivity|]. split; [done|]. cbn.
  split; intros x Hx; set_unfold in Hx; naive_solver.
Qed.
Print Assumptions C45_ids_reused_refuted.
