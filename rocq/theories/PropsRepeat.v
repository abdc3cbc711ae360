(** C105: the clusterers called again, on parts of the points, with another size, and compared.

    [query] is the query index ([None] = its query panics); the cells tell which points are in a
    cluster. *)
From stdpp Require Import base list gmap.
From Coq Require Import NArith.
From Verif Require Import Base SerialClusterer SerialClustererFacts ParallelClusterer ParallelClustererFacts
  ParallelClustererSingle RepeatFacts.
Local Open Scope nat_scope.

(** The query index answers with sets. *)
Definition answers {P} (query : P -> option (list P)) (points : list P) : Prop :=
  forall p, p ∈ points -> exists found, query p = Some found /\ NoDup found.

(** The parallel clusterer run by one thread with the size [min + 1] makes the clusters that the
    serial clusterer makes with the size [min] of the points sorted by decreasing number of similar
    points, with the same ids, and takes the same points. *)
Theorem C105_same {P} `{Countable P} (query : P -> option (list P)) (min : nat) (checks : bool)
    (m : memory P) (points sorted : list P) :
  answers query points -> sort_by_most_number_of_similar_points query points = Some sorted ->
  exists m' (cs : list (cluster P)) (k : nat),
    run_cluster query (Clusterer (sequence m) min) sorted (cells m) = ((m', Some cs), Clusterer (sequence m) min) /\
    forall n, k <= n ->
      let s := run_schedule query (min + 1) checks (cluster_start query m points) (replicate n 0) in
      cells (mem s) = m' /\ result s = Some ((fun c => (c_id c, c_points c)) <$> cs).
Proof.
  intros Hq Es. destruct (single_greedy query (min + 1) checks m points sorted Hq Es)
    as (mc & cs & m' & k & E & Hk & Hc & _).
  exists mc, cs, k. split.
  - unfold run_cluster. cbn [min_cluster_size cluster_id_sequence]. f_equal. rewrite cluster_loop_greedy, <- E.
    clear. generalize (sequence m), (cells m), (@nil (cluster P)).
    induction sorted as [|p l IH]; intros sq mm cs; [done|]. cbn [greedy]. rewrite IH.
    destruct (mm !! p); [done|]. destruct (query p) as [f|]; [|done]. cbn zeta. rewrite !IH.
    set (len := length _). replace (min + 1 <=? len) with (min <? len); [done|].
    apply eq_true_iff_eq. rewrite Nat.ltb_lt, Nat.leb_le. lia.
  - intros n Hn s. unfold s. rewrite (Hk n Hn). cbn. split; [done|]. unfold result. cbn. by rewrite app_nil_r.
Qed.
Print Assumptions C105_same.

(** Points given in two calls of the serial clusterer make the same clusters as in one call; only the
    ids are used again. *)
Theorem C105_split {P} `{Countable P} (query : P -> option (list P)) (k k1 k2 : clusterer)
    (ps1 ps2 : list P) (m m1 m2 : gmap P N) (cs1 cs2 : list (cluster P)) :
  run_cluster query k ps1 m = ((m1, Some cs1), k1) -> run_cluster query k1 ps2 m1 = ((m2, Some cs2), k2) ->
  exists m3 cs3, run_cluster query k (ps1 ++ ps2) m = ((m3, Some (cs1 ++ cs3)), k) /\
    c_points <$> cs3 = c_points <$> cs2 /\ (forall p, m2 !! p = None <-> m3 !! p = None).
Proof.
  unfold run_cluster. rewrite !cluster_loop_greedy. intros [= E1 <-] [= E2 <-]. rewrite greedy_app, E1.
  cbn [length]. rewrite greedy_acc.
  destruct (greedy_alike query (fun n => min_cluster_size k <? n) ps2 (cluster_id_sequence k)
    (cluster_id_sequence k + N.of_nat (length cs1 - 0)) m1 m1 [] []) as [Hm Hcs]; [done|done|].
  rewrite E2 in Hm, Hcs. cbn [fst snd] in Hm, Hcs.
  destruct (greedy _ _ ps2 (_ + _)%N m1 []) as [m3 [cs3|]] eqn:E3; [|done]. cbn in *.
  injection Hcs as Hcs. exists m3, cs3. done.
Qed.
Print Assumptions C105_split.

(** Called again for some of the points, with the same or a larger size, by the serial clusterer or
    another one, it makes no clusters and changes nothing. *)
Theorem C105_again {P} `{Countable P} (query : P -> option (list P)) (k k1 k2 : clusterer)
    (points points' : list P) (m m1 : gmap P N) (cs : list (cluster P)) :
  answers query points -> run_cluster query k points m = ((m1, Some cs), k1) ->
  (forall p, p ∈ points' -> p ∈ points) -> min_cluster_size k <= min_cluster_size k2 ->
  run_cluster query k2 points' m1 = ((m1, Some []), k2).
Proof.
  intros Hq E Hsub Hmin. destruct (run_cluster_spec query k points m Hq) as (m2 & cs2 & s2 & E2 & _ & Hm).
  rewrite E in E2. injection E2 as -> -> ->. unfold run_cluster. rewrite cluster_loop_greedy, greedy_nothing; [done|].
  intros p Hp Hf. destruct (Hm p (Hsub p Hp)) as [[a Ha]|(found & Hfound & Hl)]; [by rewrite Hf in Ha|].
  exists found. split; [done|]. apply Nat.ltb_ge. etransitivity; [|exact Hmin]. etransitivity; [|exact Hl].
  apply Nat.eq_le_incl. f_equal. apply bool_filter. intros x. by destruct (m2 !! x).
Qed.
Print Assumptions C105_again.

(** So for one thread of the parallel clusterer, if points are similar to themselves. *)
Theorem C105_parallel_again {P} `{Countable P} (query : P -> option (list P)) (min min' : nat) (checks : bool)
    (m m1 : memory P) (points points' : list P) (cs : list (N * list P)) (j : nat) :
  answers query points -> (forall p found, p ∈ points -> query p = Some found -> p ∈ found) ->
  (forall p, p ∈ points' -> p ∈ points) -> min <= min' ->
  let s := run_schedule query min checks (cluster_start query m points) (replicate j 0) in
  mem s = m1 -> result s = Some cs ->
  exists k, forall n, k <= n ->
    let s' := run_schedule query min' checks (cluster_start query m1 points') (replicate n 0) in
    result s' = Some [] /\ cells (mem s') = cells m1 /\ sequence (mem s') = sequence m1 /\
    forall a, (a <= sequence m1)%N -> boxes (mem s') !! a = boxes m1 !! a.
Proof.
  intros Hq Hself Hsub Hmin s Em Er.
  destruct (single_run query min checks m points Hq) as (m2 & cs2 & k & Hk & _ & _ & _ & Hmax).
  assert (Hm : m1 = m2).
  { destruct (decide (k <= j)) as [Hj|Hj].
    - unfold s in Em. rewrite (Hk j Hj) in Em. done.
    - assert (Hd : exists td cl, s = System m1 [Thread Done td cl] false).
      { unfold result in Er. destruct (forallb is_done (threads s) && negb (undefined s)) eqn:Ed; [|done].
        apply andb_true_iff in Ed as [Ed Eu].
        assert (Hl : length (threads s) = 1).
        { unfold s, run_schedule. generalize (replicate j 0). intros l.
          assert (G : forall st, length (threads st) = 1 -> length (threads (fold_left (system_step query min checks) l st)) = 1).
          { induction l as [|i l IH]; intros st Hst; [done|]. cbn. apply IH. unfold system_step.
            destruct (undefined st); [done|]. destruct (threads st !! i); [|done].
            destruct (thread_step _ _ _ _ _) as [[??]|]; [|done]. cbn. by rewrite insert_length. }
          by apply G. }
        destruct s as [ms ts us]. cbn in *. destruct ts as [|[x td cl] [|]]; try done. cbn in Ed.
        destruct x; try done. destruct us; [done|]. subst ms. eauto. }
      destruct Hd as (td & cl & Hd). specialize (Hk (j + (k - j)) ltac:(lia)).
      rewrite replicate_add, run_schedule_app in Hk. fold s in Hk. rewrite Hd, done_stable in Hk. by injection Hk as ->. }
  subst m2.
  assert (Hq' : answers query points') by (intros p Hp; apply Hq, Hsub, Hp).
  destruct (sort_spec query points') as (sorted & Es & Hperm & _).
  { intros p Hp. destruct (Hq' p Hp) as (f & ? & _). eauto. }
  destruct (single_greedy query min' checks m1 points' sorted Hq' Es) as (mc & cs' & m' & k' & E & Hk' & Hc & Hs & Hb).
  rewrite greedy_nothing in E.
  - injection E as <- <-. exists k'. intros n Hn s'. unfold s'. rewrite (Hk' n Hn). cbn in *. split; [done|]. split; [done|].
    split; [|done]. rewrite Hs. lia.
  - intros p Hp Hf. rewrite Hperm in Hp. apply Hsub in Hp. destruct (Hmax p Hp) as [[a Ha]|(found & Hfound & Hl)]; [by rewrite Hf in Ha|].
    exists found. split; [done|]. apply Nat.leb_gt. eapply Nat.lt_le_trans; [|exact Hmin].
    rewrite (bool_filter _ (fun x => cells m1 !! x = None)) by (intros x; by destruct (cells m1 !! x)).
    destruct Hl as [Hnil|Hl]; [|done]. exfalso. assert (Hin : p ∈ filter (fun x => cells m1 !! x = None) found).
    { apply elem_of_list_filter. split; [done|]. by apply Hself. }
    rewrite Hnil in Hin. by apply elem_of_nil in Hin.
Qed.
Print Assumptions C105_parallel_again.

(** Points that are in a cluster from the start may be left out. *)
Theorem C105_assigned {P} `{Countable P} (query : P -> option (list P)) (k : clusterer) (points : list P) (m : gmap P N) :
  run_cluster query k points m = run_cluster query k (filter (fun p => m !! p = None) points) m.
Proof. unfold run_cluster. rewrite !cluster_loop_greedy. f_equal. by apply greedy_assigned. Qed.
Print Assumptions C105_assigned.

(** The iteration order of the answers changes the order of the points within the clusters only. *)
Theorem C105_order {P} `{Countable P} (query query' : P -> option (list P)) (k k1 : clusterer) (points : list P)
    (m m1 : gmap P N) (cs : list (cluster P)) :
  (forall p, p ∈ points -> exists f f', query p = Some f /\ query' p = Some f' /\ f ≡ₚ f') ->
  run_cluster query k points m = ((m1, Some cs), k1) ->
  exists cs', run_cluster query' k points m = ((m1, Some cs'), k1) /\
    Forall2 (fun c c' => c_id c = c_id c' /\ c_points c ≡ₚ c_points c') cs cs'.
Proof.
  intros Hq E. unfold run_cluster in *. rewrite !cluster_loop_greedy in *. injection E as E <-.
  destruct (greedy_order query query' (fun n => min_cluster_size k <? n) points (cluster_id_sequence k) m [] []) as [Hm Hcs].
  { intros p Hp. destruct (Hq p Hp) as (f & f' & -> & -> & ?). done. } { done. }
  rewrite E in Hm, Hcs. destruct (greedy query' _ _ _ _ _) as [m2 [cs'|]]; [|done]. cbn in *. subst m2. eauto.
Qed.
Print Assumptions C105_order.

(** A larger size makes no difference if all clusters are larger. *)
Theorem C105_stricter {P} `{Countable P} (query : P -> option (list P)) (seq : N) (min min' : nat) (points : list P)
    (m m1 : gmap P N) (cs : list (cluster P)) (k1 : clusterer) :
  min <= min' -> run_cluster query (Clusterer seq min) points m = ((m1, Some cs), k1) ->
  (forall c, c ∈ cs -> min' < length (c_points c)) ->
  run_cluster query (Clusterer seq min') points m = ((m1, Some cs), Clusterer seq min').
Proof.
  intros Hmin E Hall. unfold run_cluster in *. rewrite cluster_loop_greedy in *. cbn [min_cluster_size cluster_id_sequence] in *.
  injection E as E _. f_equal. apply (greedy_stricter query (fun n => min <? n) (fun n => min' <? n) points seq m m1 [] cs).
  - intros n Hn. apply Nat.ltb_lt in Hn. apply Nat.ltb_lt. lia.
  - exact E.
  - apply Forall_forall. intros c Hc. by apply Nat.ltb_lt, Hall.
Qed.
Print Assumptions C105_stricter.

(** There are at most as many clusters as fit into the points that are found. *)
Theorem C105_count {P} `{Countable P} (query : P -> option (list P)) (k k1 : clusterer) (points all : list P)
    (m m1 : gmap P N) (cs : list (cluster P)) :
  answers query points -> (forall p found x, p ∈ points -> query p = Some found -> x ∈ found -> x ∈ all) ->
  run_cluster query k points m = ((m1, Some cs), k1) ->
  length cs * (min_cluster_size k + 1) <= length (filter (fun x => m !! x = None) all).
Proof.
  intros Hq Hall E. destruct (run_cluster_spec query k points m Hq) as (m2 & cs2 & s2 & E2 & Hi & _).
  rewrite E in E2. injection E2 as -> -> ->.
  assert (Hsub : forall x, x ∈ members cs2 -> x ∈ filter (fun x => m !! x = None) all).
  { intros x Hx. apply elem_of_list_filter. split; [by apply (l_fresh _ _ _ _ _ _ _ _ Hi)|].
    apply elem_of_members in Hx as (c & Hc & Hx). apply elem_of_list_split in Hc as (l1 & l2 & ->).
    destruct (l_seed _ _ _ _ _ _ _ _ Hi l1 c l2 eq_refl) as (p & found & Hp & _ & _ & Hf & Hcp).
    rewrite Hcp in Hx. apply elem_of_list_filter in Hx as [_ Hx]. by eapply Hall. }
  etransitivity; [|apply (submseteq_length (members cs2)), NoDup_submseteq; [by apply (l_nodup _ _ _ _ _ _ _ _ Hi)|exact Hsub]].
  pose proof (l_big _ _ _ _ _ _ _ _ Hi) as Hbig. clear -Hbig. induction Hbig as [|c cs Hc _ IH]; [done|].
  apply Nat.ltb_lt in Hc. change (members (c :: cs)) with (c_points c ++ members cs). rewrite app_length. cbn. lia.
Qed.
Print Assumptions C105_count.

(** But a larger size may give more clusters with more points: a cluster that is now too small no
    longer takes the centres of others. *)
Definition c105_star (p : N) : option (list N) := Some (match p with
  | 0 => [0;1;4] | 1 => [0;1;2;3] | 2 => [1;2] | 3 => [1;3]
  | 4 => [0;4;5;6;7] | 5 => [4;5] | 6 => [4;6] | 7 => [4;7] | _ => [p] end)%N.
(** Every point is similar to itself, and similarity is symmetric. *)
Definition similarity_like {P} (query : P -> option (list P)) (points : list P) : Prop :=
  answers query points /\ (forall p f, p ∈ points -> query p = Some f -> p ∈ f) /\
  (forall p q f g, p ∈ points -> q ∈ points -> query p = Some f -> query q = Some g -> q ∈ f -> p ∈ g).
Definition similarity_likeb (query : N -> option (list N)) (points : list N) : bool :=
  forallb (fun p => match query p with
    | Some f => bool_decide (NoDup f) && bool_decide (p ∈ f) &&
        forallb (fun q => match query q with Some g => implb (bool_decide (q ∈ f)) (bool_decide (p ∈ g)) | None => false end) points
    | None => false end) points.
Lemma similarity_like_test query points : similarity_likeb query points = true -> similarity_like query points.
Proof.
  unfold similarity_likeb. rewrite forallb_forall. intros Hb.
  assert (H : forall p, p ∈ points -> exists f, query p = Some f /\ NoDup f /\ p ∈ f /\
    forall q g, q ∈ points -> query q = Some g -> q ∈ f -> p ∈ g).
  { intros p Hp. specialize (Hb p (proj1 (elem_of_list_In _ _) Hp)). destruct (query p) as [f|]; [|done].
    apply andb_true_iff in Hb as [[H1 H2]%andb_true_iff H3]. apply bool_decide_eq_true in H1, H2.
    exists f. split; [done|]. split; [done|]. split; [done|]. intros q g Hq Eq Hin.
    rewrite forallb_forall in H3. specialize (H3 q (proj1 (elem_of_list_In _ _) Hq)). rewrite Eq in H3.
    rewrite (bool_decide_eq_true_2 _ Hin) in H3. by apply bool_decide_eq_true in H3. }
  split; [|split].
  - intros p Hp. destruct (H p Hp) as (f & ? & ? & _). eauto.
  - intros p f Hp E. destruct (H p Hp) as (f' & E' & _ & ? & _). rewrite E in E'. by injection E' as ->.
  - intros p q f g Hp Hq E Eq Hin. destruct (H p Hp) as (f' & E' & _ & _ & Hs). rewrite E in E'. injection E' as <-. eauto.
Qed.
Theorem C105_larger_refuted : exists (query : N -> option (list N)) (min min' : nat) (points : list N) m1 cs1 k1 m2 cs2 k2,
  similarity_like query points /\ min < min' /\
  run_cluster query (clusterer_new min) points ∅ = ((m1, Some cs1), k1) /\
  run_cluster query (clusterer_new min') points ∅ = ((m2, Some cs2), k2) /\
  length cs1 < length cs2 /\ length (concat (c_points <$> cs1)) < length (concat (c_points <$> cs2)).
Proof.
  exists c105_star, 1, 3, [0;1;2;3;4;5;6;7]%N. eexists _, _, _, _, _, _.
  split; [apply similarity_like_test; vm_compute; reflexivity|]. split; [lia|].
  split; [vm_compute; reflexivity|]. split; [vm_compute; reflexivity|]. cbn. lia.
Qed.
Print Assumptions C105_larger_refuted.

(** The parallel clusterer, too, although it begins with the points that have most similar points. *)
Definition c105_stars (p : N) : option (list N) := Some (match p with
  | 0 => [0;10;11;12;13;14;15;16] | 1 => [1;10;11;12;13;14;2;3] | 2 => [2;1;20;21;22] | 3 => [3;1;30;31;32]
  | 10 | 11 | 12 | 13 | 14 => [p;0;1] | 15 | 16 => [p;0] | 20 | 21 | 22 => [p;2] | 30 | 31 | 32 => [p;3] | _ => [p] end)%N.
Definition c105_points : list N := [0;1;2;3;10;11;12;13;14;15;16;20;21;22;30;31;32]%N.
Theorem C105_parallel_larger_refuted : exists (query : N -> option (list N)) (min min' : nat) (checks : bool) (points : list N) n cs1 cs2,
  similarity_like query points /\ min < min' /\
  result (run_schedule query min checks (cluster_start query (Memory ∅ ∅ 0%N) points) (replicate n 0)) = Some cs1 /\
  result (run_schedule query min' checks (cluster_start query (Memory ∅ ∅ 0%N) points) (replicate n 0)) = Some cs2 /\
  length cs1 < length cs2 /\ length (concat cs1.*2) < length (concat cs2.*2).
Proof.
  exists c105_stars, 3, 4, true, c105_points, 200. eexists _, _.
  split; [apply similarity_like_test; vm_compute; reflexivity|]. split; [lia|].
  split; [vm_compute; reflexivity|]. split; [vm_compute; reflexivity|]. cbn. lia.
Qed.
Print Assumptions C105_parallel_larger_refuted.

(** The serial clusterer with the sizes 1, 3 and the parallel one with 4. *)
Example C105_example :
  let ps := [0;1;2;3;4;5;6;7]%N in
  (run_cluster c105_star (clusterer_new 1) ps ∅).1.2 = Some [Cluster 1 [0;1;4]]%N /\
  (run_cluster c105_star (clusterer_new 2) ps ∅).1.2 = Some [Cluster 1 [0;1;4]]%N /\
  (run_cluster c105_star (clusterer_new 3) ps ∅).1.2 = Some [Cluster 1 [0;1;2;3]; Cluster 2 [4;5;6;7]]%N /\
  sort_by_most_number_of_similar_points c105_star ps = Some [4;1;0;2;3;5;6;7]%N /\
  (run_cluster c105_star (clusterer_new 2) [4;1;0;2;3;5;6;7]%N ∅).1.2 = Some [Cluster 1 [0;4;5;6;7]; Cluster 2 [1;2;3]]%N /\
  result (run_schedule c105_star 3 true (cluster_start c105_star (Memory ∅ ∅ 0%N) ps) (replicate 99 0)) =
    Some [(1, [0;4;5;6;7]); (2, [1;2;3])]%N.
Proof. vm_compute. split_and!; reflexivity. Qed.
(** In two calls. *)
Example C105_split_example :
  let r := run_cluster c105_star (clusterer_new 2) [1;2]%N ∅ in
  r.1.2 = Some [Cluster 1 [0;1;2;3]]%N /\ (run_cluster c105_star r.2 [3;4]%N r.1.1).1.2 = Some [Cluster 1 [4;5;6;7]]%N /\
  (run_cluster c105_star (clusterer_new 2) ([1;2] ++ [3;4])%N ∅).1.2 = Some [Cluster 1 [0;1;2;3]; Cluster 2 [4;5;6;7]]%N.
Proof. vm_compute. split_and!; reflexivity. Qed.
(** Again: nothing with the same size, but something with a smaller one. *)
Example C105_again_example :
  let r := run_cluster c105_star (clusterer_new 4) [0;1;2;3;4;5;6;7]%N ∅ in
  r.1.2 = Some [Cluster 1 [0;4;5;6;7]]%N /\ (run_cluster c105_star (clusterer_new 4) [7;1]%N r.1.1).1.2 = Some [] /\
  (run_cluster c105_star (clusterer_new 2) [7;1]%N r.1.1).1.2 = Some [Cluster 1 [1;2;3]]%N /\
  let s := run_schedule c105_star 4 true (cluster_start c105_star (Memory ∅ ∅ 0%N) [0;1;2;3;4;5;6;7]%N) (replicate 99 0) in
  result s = Some [(1, [0;4;5;6;7])]%N /\
  result (run_schedule c105_star 4 true (cluster_start c105_star (mem s) [7;1]%N) (replicate 99 0)) = Some [].
Proof. vm_compute. split_and!; reflexivity. Qed.
