(** Properties C46-C49 and C56: the parallel clusterer.

    [query] is the query index ([None] = its query panics), [checks] tells whether arithmetic
    overflow panics (debug builds). A schedule lists the threads that take the steps: a theorem for
    all schedules is a theorem for all interleavings. *)
From stdpp Require Import base list gmap.
From Coq Require Import NArith.
From Verif Require Import ListFacts Base SerialClusterer SerialClustererFacts ParallelClusterer
  ParallelClustererFacts ParallelClustererSingle.
Local Open Scope nat_scope.

(** 1 and 3 are similar to 2; 4 is similar to itself only. *)
Definition ex_query (p : N) : option (list N) :=
  Some (match p with 1 => [1;2] | 2 => [2;1;3] | 3 => [3;2] | _ => [p] end)%N.
Definition ex_mem : memory N := Memory ∅ ∅ 0%N.
Definition ex_start (points : list N) : system (P := N) :=
  default (System ex_mem [] true) (cluster_par_start ex_query ex_mem 2 points).
Lemma ex_query_sym p q f g :
  ex_query p = Some f -> ex_query q = Some g -> p ∈ f /\ (q ∈ f <-> p ∈ g).
Proof.
  intros [= <-] [= <-]. destruct p as [|[[]|[]|]], q as [|[[]|[]|]]; set_solver.
Qed.
Notation by_turns l := (concat (map (fun x => replicate x.2 x.1) l)).

(** ** C46 *)
Theorem C46_single_thread {P} `{Countable P} (query : P -> option (list P)) (min : nat)
    (checks : bool) (m : memory P) (points : list P) :
  (forall p, p ∈ points -> exists found, query p = Some found /\ NoDup found) ->
  exists m' (cs : list (N * list P)) k,
    (* the single thread finishes *)
    (forall n, k <= n ->
      let s := run_schedule query min checks (cluster_start query m points) (replicate n 0) in
      mem s = m' /\ result s = Some cs) /\
    NoDup (concat cs.*2) /\
    (forall a own x, (a, own) ∈ cs -> x ∈ own -> cells m !! x = None /\ cells m' !! x = Some a) /\
    (forall a own, (a, own) ∈ cs -> min <= length own /\ boxes m' !! a = Some (Box COMMITTED false)) /\
    (forall x, (forall a own, (a, own) ∈ cs -> x ∉ own) -> cells m' !! x = cells m !! x) /\
    (* each cluster consists of all still unassigned points similar to an unassigned given point *)
    (forall i a own, cs !! i = Some (a, own) ->
      a = (sequence m + 1 + N.of_nat i)%N /\
      let before := concat (take i cs).*2 in
      exists p found, p ∈ points /\ cells m !! p = None /\ p ∉ before /\ query p = Some found /\
        own = filter (fun x => cells m !! x = None /\ x ∉ before) found) /\
    sequence m' = (sequence m + N.of_nat (length cs))%N /\
    (forall a, (a <= sequence m)%N -> boxes m' !! a = boxes m !! a) /\
    (* nothing is left *)
    (forall p found, p ∈ points -> query p = Some found -> cells m' !! p = None ->
      filter (fun x => cells m' !! x = None) found = [] \/
      length (filter (fun x => cells m' !! x = None) found) < min).
Proof.
  intros Hq. destruct (single_run query min checks m points Hq) as (m' & cs & k & Hk & Hi & Hb & Hold & Hmax).
  assert (Hsnd : forall l : list (cluster P), concat (pair_of <$> l).*2 = members l).
  { intros l. unfold members. rewrite <- list_fmap_compose. done. }
  assert (Hin : forall a own, (a, own) ∈ pair_of <$> cs -> exists c, c ∈ cs /\ a = c_id c /\ own = c_points c).
  { intros a own (c & [= -> ->] & Hc)%elem_of_list_fmap. eauto. }
  exists m', (pair_of <$> cs), k. split.
  { intros n Hn s. unfold s. rewrite (Hk n Hn). cbn. unfold result. cbn. by rewrite app_nil_r. }
  split; [rewrite Hsnd; apply Hi|]. split.
  { intros a own x (c & Hc & -> & ->)%Hin Hx. split; [|by apply Hi].
    apply Hi, elem_of_members. eauto. }
  split.
  { intros a own (c & Hc & -> & ->)%Hin. split; [|by apply Hb].
    apply Nat.leb_le. by apply (proj1 (Forall_forall _ _) (l_big _ _ _ _ _ _ _ _ Hi)). }
  split.
  { intros x Hx. apply Hi. intros (c & Hc & Hxc)%elem_of_members.
    apply (Hx (c_id c) (c_points c)); [|done]. apply elem_of_list_fmap. by exists c. }
  split.
  { intros i a own. rewrite list_lookup_fmap. intros (c & Hc & [= -> ->])%fmap_Some. split.
    - assert (Hlt := lookup_lt_Some _ _ _ Hc).
      assert (E1 : (c_id <$> cs) !! i = Some (c_id c)) by by rewrite list_lookup_fmap, Hc.
      rewrite (l_ids _ _ _ _ _ _ _ _ Hi), list_lookup_fmap, lookup_seq_lt in E1 by done.
      injection E1 as <-. lia.
    - cbn zeta. rewrite <- fmap_take, Hsnd. apply (l_seed _ _ _ _ _ _ _ _ Hi _ c (drop (S i) cs)).
      by rewrite take_drop_middle. }
  split; [rewrite fmap_length; apply Hi|]. split; [done|].
  intros p found Hp Hf Hn. destruct (Hmax p Hp) as [[? Hs]|(f & Hf' & Hr)]; [congruence|].
  rewrite Hf in Hf'. by injection Hf' as <-.
Qed.

(** The seeds are visited in the order of the number of similar points, largest first; the order
    of points with equally many is kept. *)
Theorem C46_order {P} (query : P -> option (list P)) (points : list P) :
  (forall p, p ∈ points -> is_Some (query p)) ->
  exists sorted, sort_by_most_number_of_similar_points query points = Some sorted /\
    sorted ≡ₚ points /\
    (forall i j p q f g, i < j -> sorted !! i = Some p -> sorted !! j = Some q ->
      query p = Some f -> query q = Some g -> length g <= length f) /\
    (forall n, filter (fun p => (length <$> query p) = Some n) sorted
               = filter (fun p => (length <$> query p) = Some n) points).
Proof. exact (sort_spec query points). Qed.

Example C46_example :
  result (run_schedule ex_query 2 true (cluster_start ex_query ex_mem [1;4;3;2]%N) (replicate 40 0))
  = Some [(1, [2;1;3])]%N /\
  result (run_schedule ex_query 1 true (cluster_start ex_query ex_mem [1;4;3;2]%N) (replicate 60 0))
  = Some [(1, [2;1;3]); (2, [4])]%N /\
  sort_by_most_number_of_similar_points ex_query [1;4;3;2]%N = Some [2;1;3;4]%N.
Proof. vm_compute. split_and!; reflexivity. Qed.
Print Assumptions C46_single_thread.
Print Assumptions C46_order.

(** ** C47 *)
(** [m0] is the memory at the start: pointers lead to committed clusters with earlier ids. The
    threads run [cluster_slice] on [chunks]; [s] is any state reached without undefined
    behaviour. *)
Theorem C47_interleavings {P} `{Countable P} (query : P -> option (list P)) (min : nat)
    (checks : bool) (m0 : memory P) (chunks : list (list P)) (schedule : list nat) :
  (forall p found, query p = Some found -> NoDup found) ->
  (forall p a, cells m0 !! p = Some a ->
    (a <= sequence m0)%N /\ boxes m0 !! a = Some (Box COMMITTED false)) ->
  let s := run_schedule query min checks (System m0 (cluster_slice_start query <$> chunks) false) schedule in
  undefined s = false ->
  (* the ids of returned clusters are new and pairwise distinct *)
  NoDup (concat (clusters <$> threads s)).*1 /\
  (forall i t ch a own, threads s !! i = Some t -> chunks !! i = Some ch -> (a, own) ∈ clusters t ->
    (sequence m0 < a <= sequence (mem s))%N /\
    boxes (mem s) !! a = Some (Box COMMITTED false) /\
    NoDup own /\
    exists p found, p ∈ ch /\ query p = Some found /\ own `sublist_of` found) /\
  (* prior assignments stay *)
  (forall p a, cells m0 !! p = Some a -> cells (mem s) !! p = Some a) /\
  (* in the end every new pointer leads to a returned cluster with that point *)
  (forall cs, result s = Some cs -> forall p a, cells (mem s) !! p = Some a ->
    cells m0 !! p = Some a \/ exists own, (a, own) ∈ cs /\ p ∈ own).
Proof.
  intros Hnd Hg s Hu.
  assert (HI : inv query m0 chunks s).
  { apply run_inv; [by constructor|apply start_inv|done]. }
  exact (inv_guarantees query m0 chunks Hnd s HI Hu).
Qed.

(** Two threads that meet: the second loses and both end. *)
Example C47_example :
  let s := run_schedule ex_query 2 true (ex_start [1;4;2;3]%N) (by_turns [(0,7);(1,12);(0,20);(1,20)]) in
  result s = Some [(2, [2;3])]%N /\ map_to_list (cells (mem s)) = [(3,2);(2,2)]%N.
Proof. vm_compute. split; reflexivity. Qed.
Print Assumptions C47_interleavings.

(** A returned cluster can have fewer than [min_cluster_size] points: a conflicting cluster that
    commits between the two tests of its state is taken for one that was rolled back, and the
    point is skipped. *)
Theorem C47_undersized_refuted :
  exists (query : N -> option (list N)) (min : nat) (points : list N) (s0 : system (P := N))
    (schedule : list nat) cs a own,
    (forall p found, query p = Some found -> NoDup found) /\
    cluster_par_start query (Memory ∅ ∅ 0%N) 2 points = Some s0 /\
    result (run_schedule query min true s0 schedule) = Some cs /\
    (a, own) ∈ cs /\ length own < min.
Proof.
  exists ex_query, 2, [1;4;2;3]%N. eexists.
  exists (by_turns [(0,7);(1,10);(0,3);(1,2);(0,10);(1,10)]), [(1, [1]); (2, [2;3])]%N, 1%N, [1]%N.
  split. { intros p found [= <-]. destruct p as [|[[]|[]|]]; apply (bool_decide_unpack _); vm_compute; exact I. }
  split; [vm_compute; reflexivity|]. split; [vm_compute; reflexivity|]. split; [left|cbn; lia].
Qed.
Print Assumptions C47_undersized_refuted.

(** ** C48 *)
(** A point in two returned clusters. *)
Theorem C48_disjoint_refuted :
  exists (query : N -> option (list N)) (min : nat) (points : list N) (s0 : system (P := N))
    (schedule : list nat) cs a own b own' p,
    (forall p q f g, query p = Some f -> query q = Some g -> p ∈ f /\ (q ∈ f <-> p ∈ g)) /\
    cluster_par_start query (Memory ∅ ∅ 0%N) 2 points = Some s0 /\
    result (run_schedule query min true s0 schedule) = Some cs /\
    (a, own) ∈ cs /\ (b, own') ∈ cs /\ a ≠ b /\ p ∈ own /\ p ∈ own'.
Proof.
  exists ex_query, 2, [1;4;2;3]%N. eexists.
  exists (by_turns [(0,5);(1,8);(0,10);(1,40);(0,10)]), [(1, [1;2]); (3, [3;2])]%N, 1%N, [1;2]%N, 3%N, [3;2]%N, 2%N.
  split. { exact ex_query_sym. }
  split; [vm_compute; reflexivity|]. split; [vm_compute; reflexivity|].
  split; [left|]. split; [right; left|]. split; [done|]. split; set_solver.
Qed.
Print Assumptions C48_disjoint_refuted.

(** A point of a returned cluster that is unassigned at the end. *)
Theorem C48_unassigned_refuted :
  exists (query : N -> option (list N)) (min : nat) (points : list N) (s0 : system (P := N))
    (schedule : list nat) cs a own p,
    (forall p q f g, query p = Some f -> query q = Some g -> p ∈ f /\ (q ∈ f <-> p ∈ g)) /\
    cluster_par_start query (Memory ∅ ∅ 0%N) 2 points = Some s0 /\
    result (run_schedule query min true s0 schedule) = Some cs /\
    (a, own) ∈ cs /\ p ∈ own /\ cells (mem (run_schedule query min true s0 schedule)) !! p = None.
Proof.
  exists ex_query, 2, [1;4;2;5]%N. eexists.
  exists (by_turns [(0,5);(1,8);(0,10);(1,40);(0,10)]), [(1, [1;2])]%N, 1%N, [1;2]%N, 2%N.
  split. { exact ex_query_sym. }
  split; [vm_compute; reflexivity|]. split; [vm_compute; reflexivity|].
  split; [left|]. split; [set_solver|]. vm_compute. reflexivity.
Qed.
Print Assumptions C48_unassigned_refuted.

(** A thread uses a cluster that was freed. *)
Theorem C48_use_after_free_refuted :
  exists (query : N -> option (list N)) (min : nat) (points : list N) (s0 : system (P := N))
    (schedule : list nat) m t c b,
    (forall p q f g, query p = Some f -> query q = Some g -> p ∈ f /\ (q ∈ f <-> p ∈ g)) /\
    cluster_par_start query (Memory ∅ ∅ 0%N) 2 points = Some s0 /\
    let s := run_schedule query min true s0 schedule in
    undefined s = false /\ m = mem s /\ threads s !! 1 = Some t /\
    (* thread 1 is about to read the state of [c], which was freed *)
    (exists a own p rest i, at_pc t = Conflict1 a own p rest i c) /\
    boxes m !! c = Some b /\ freed b = true /\
    undefined (system_step query min true s 1) = true.
Proof.
  exists ex_query, 2, [1;4;2;3]%N. eexists.
  exists (by_turns [(0,4);(1,8);(0,3);(1,2);(0,10)]). eexists _, _, 2%N, _.
  split. { exact ex_query_sym. }
  split; [vm_compute; reflexivity|]. cbn zeta. split; [vm_compute; reflexivity|]. split; [reflexivity|].
  split; [vm_compute; reflexivity|]. split; [cbn; eauto 10|]. split; [vm_compute; reflexivity|].
  split; [reflexivity|]. vm_compute. reflexivity.
Qed.
Print Assumptions C48_use_after_free_refuted.

(** With overflow checks the retry of the first point panics: [i - 1] with [i = 0]. *)
Theorem C48_retry_panics_refuted :
  exists (query : N -> option (list N)) (min : nat) (points : list N) (s0 : system (P := N))
    (schedule : list nat) t,
    (forall p q f g, query p = Some f -> query q = Some g -> p ∈ f /\ (q ∈ f <-> p ∈ g)) /\
    cluster_par_start query (Memory ∅ ∅ 0%N) 2 points = Some s0 /\
    threads (run_schedule query min true s0 schedule) !! 0 = Some t /\ at_pc t = Panicked.
Proof.
  exists ex_query, 2, [2;4;1;3]%N. eexists.
  exists (by_turns [(0,6);(1,9);(0,3);(1,2);(0,1)]). eexists.
  split. { exact ex_query_sym. }
  split; [vm_compute; reflexivity|]. split; [vm_compute; reflexivity|]. reflexivity.
Qed.
Print Assumptions C48_retry_panics_refuted.

(** A cluster that was rolled back and gave its points back takes further points: after releasing
    its points the thread goes on with the next point instead of giving up. *)
Definition ex_query2 (p : N) : option (list N) :=
  Some (match p with 1 => [1;2] | 2 => [2;3;1] | 3 => [3;2] | _ => [p] end)%N.
Lemma ex_query2_sym p q f g :
  ex_query2 p = Some f -> ex_query2 q = Some g -> p ∈ f /\ (q ∈ f <-> p ∈ g).
Proof.
  intros [= <-] [= <-]. destruct p as [|[[]|[]|]], q as [|[[]|[]|]]; set_solver.
Qed.
Theorem C48_gives_up_refuted :
  exists (query : N -> option (list N)) (min : nat) (points : list N) (s0 : system (P := N))
    (schedule schedule' schedule'' : list nat) c p q,
    (forall p q f g, query p = Some f -> query q = Some g -> p ∈ f /\ (q ∈ f <-> p ∈ g)) /\
    cluster_par_start query (Memory ∅ ∅ 0%N) 2 points = Some s0 /\
    let run l := mem (run_schedule query min true s0 l) in
    cells (run schedule) !! p = Some c /\
    (* rolled back and released *)
    boxes (run (schedule ++ schedule')) !! c = Some (Box ROLLED_BACK false) /\
    cells (run (schedule ++ schedule')) !! p = None /\ cells (run (schedule ++ schedule')) !! q = None /\
    (* another point taken *)
    cells (run (schedule ++ schedule' ++ schedule'')) !! q = Some c.
Proof.
  exists ex_query2, 2, [1;4;2;5]%N. eexists.
  exists (by_turns [(0,5);(1,8)]), (by_turns [(0,8);(1,2)]), (by_turns [(1,2)]), 2%N, 2%N, 3%N.
  split. { exact ex_query2_sym. }
  split; [vm_compute; reflexivity|]. vm_compute. split_and!; reflexivity.
Qed.
Print Assumptions C48_gives_up_refuted.

(** ** C49 *)
Theorem C49_panics {P} (n_threads : nat) (points : list P) :
  cluster_par_chunks n_threads points = None <-> n_threads = 0 \/ length points < n_threads.
Proof. exact (chunks_panic n_threads points). Qed.

Theorem C49_chunks {P} (n_threads : nat) (points : list P) (chunks : list (list P)) :
  cluster_par_chunks n_threads points = Some chunks ->
  concat chunks = points /\
  n_threads <= length chunks < 2 * n_threads /\
  forall i ch, chunks !! i = Some ch ->
    0 < length ch /\ (S i < length chunks -> length ch = length points / n_threads).
Proof. exact (chunks_spec n_threads points chunks). Qed.

(** More chunks than threads are possible. *)
Example C49_example :
  cluster_par_chunks 3 [1;2;3;4;5]%N = Some [[1];[2];[3];[4];[5]]%N /\
  cluster_par_chunks 2 [1;2;3;4;5]%N = Some [[1;2];[3;4];[5]]%N /\
  cluster_par_chunks 2 [1]%N = None /\ cluster_par_chunks 0 [1]%N = None.
Proof. vm_compute. split_and!; reflexivity. Qed.
Print Assumptions C49_panics.
Print Assumptions C49_chunks.

(** ** C56 *)
(** An attempt over [n] similar points takes at most [n * (n + 10) + 2 * n + 9] steps; once a
    thread has taken the sum over its points, and 2 more, it has finished - whatever the other
    threads do - unless undefined behaviour occurred. *)
Theorem C56_wait_free {P} `{Countable P} (query : P -> option (list P)) (min : nat)
    (checks : bool) (m0 : memory P) (chunks : list (list P)) (schedule : list nat) (i : nat)
    (ch : list P) :
  let visit p := let n := match query p with Some found => length found | None => 0 end in
                 n * (n + 10) + 2 * n + 9 in
  let s := run_schedule query min checks (System m0 (cluster_slice_start query <$> chunks) false) schedule in
  chunks !! i = Some ch ->
  2 + sum_list (visit <$> ch) <= length (filter (fun j => j = i) schedule) ->
  undefined s = true \/
  exists t, threads s !! i = Some t /\ (at_pc t = Done \/ at_pc t = Panicked).
Proof. exact (wait_free query min checks m0 chunks schedule i ch). Qed.

Example C56_example :
  let visit p := let n := match ex_query p with Some found => length found | None => 0 end in
                 n * (n + 10) + 2 * n + 9 in
  sum_list (visit <$> [1;4]%N) = 59 /\ sum_list (visit <$> [2;3]%N) = 91 /\
  is_Some (result (run_schedule ex_query 2 true (ex_start [1;4;2;3]%N) (by_turns [(0,5);(1,8);(0,56);(1,85)]))).
Proof. vm_compute. split; [reflexivity|]. split; [reflexivity|]. eexists. reflexivity. Qed.
Print Assumptions C56_wait_free.
