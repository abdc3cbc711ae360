(** Property C64: the parallel clusterer when no point is similar to points of two chunks. *)
From stdpp Require Import base list gmap.
From Coq Require Import NArith.
From Verif Require Import Base ParallelClusterer SpecParallel ParallelClustererSeparate.
Local Open Scope nat_scope.

Section C64.
Context {P : Type} `{Countable P}.
Context (query : P -> option (list P)) (min : nat) (checks : bool) (m0 : memory P) (chunks : list (list P)).
(** Every given point can be queried. *)
Context (Hquery : forall ch p, ch ∈ chunks -> p ∈ ch -> exists found, query p = Some found /\ NoDup found).
(** What is found from one chunk is neither in another nor found from another. *)
Context (Hseparate : forall i j ch ch' p q found x, i <> j -> chunks !! i = Some ch -> chunks !! j = Some ch' ->
  p ∈ ch -> query p = Some found -> x ∈ found ->
  q ∈ ch' -> x <> q /\ forall found', query q = Some found' -> x ∉ found').
Notation run schedule :=
  (run_schedule query min checks (System m0 (cluster_slice_start query <$> chunks) false) schedule).

Lemma to_separated : separated query chunks.
Proof.
  intros i j ch ch' x q found Hij Hi Hj (p & Hp & Hx) Hq Hf Hin.
  destruct (Hseparate j i ch' ch q p found x (not_eq_sym Hij) Hj Hi Hq Hf Hin Hp) as [H1 H2].
  destruct Hx as [->|(f & Hf' & Hx)]; [done|]. by apply (H2 f).
Qed.

(** In every interleaving no undefined behaviour and no panic occurs, and once every thread has
    taken as many steps as C56 says the result is there. *)
Theorem C64_finishes (schedule : list nat) :
  let visit p := let n := match query p with Some found => length found | None => 0 end in
                 n * (n + 10) + 2 * n + 9 in
  undefined (run schedule) = false /\
  (forall i t, threads (run schedule) !! i = Some t -> at_pc t <> Panicked) /\
  ((forall i ch, chunks !! i = Some ch -> 2 + sum_list (visit <$> ch) <= length (filter (fun j => j = i) schedule)) ->
   is_Some (result (run schedule))).
Proof.
  destruct (separate_defined query min checks m0 chunks Hquery to_separated schedule) as [H1 H2].
  split; [done|]. split; [done|]. exact (separate_finishes query min checks m0 chunks Hquery to_separated schedule).
Qed.

(** The clusters of each thread are those of a run on its chunk alone, whatever the schedule. *)
Theorem C64_as_alone (schedule : list nat) (cs : list (N * list P)) : result (run schedule) = Some cs ->
  forall i ch, chunks !! i = Some ch ->
  exists t k cs', threads (run schedule) !! i = Some t /\ (clusters t).*2 = cs'.*2 /\
    forall n, k <= n ->
      result (run_schedule query min checks (cluster_start query m0 ch) (replicate n 0)) = Some cs'.
Proof. exact (separate_alone query min checks m0 chunks Hquery to_separated schedule cs). Qed.

(** The clusters are disjoint, large enough, made of points that were free, which now point to
    them. *)
Theorem C64_clusters (schedule : list nat) (cs : list (N * list P)) : result (run schedule) = Some cs ->
  NoDup (concat cs.*2) /\
  forall a own, (a, own) ∈ cs -> min <= length own /\
    forall x, x ∈ own -> cells m0 !! x = None /\ cells (mem (run schedule)) !! x = Some a.
Proof. exact (separate_clusters query min checks m0 chunks Hquery to_separated schedule cs). Qed.

(** Two threads never use the same box, and no thread uses a cell that another writes, at any two
    times of an execution. *)
Theorem C64_no_sharing (schedule : list nat) (n n' i j : nat) t u : i <> j ->
  threads (run (take n schedule)) !! i = Some t -> threads (run (take n' schedule)) !! j = Some u ->
  (forall a, uses_box t = Some a -> uses_box u <> Some a) /\
  (forall p, writes_cell t = Some p -> reads_cell u <> Some p /\ writes_cell u <> Some p).
Proof.
  intros Hij Ht Hu. split; intros.
  - by apply (no_sharing_boxes query min checks m0 chunks Hquery to_separated n n' schedule i j t u).
  - by apply (no_sharing_cells query min checks m0 chunks Hquery to_separated n n' schedule i j t u).
Qed.
End C64.

(** Two groups of points. *)
Definition c64_query (p : N) : option (list N) :=
  Some (match p with 1 => [1;2;7] | 2 => [2;1] | 7 => [7;1] | 3 => [3;4] | 4 => [4;3;8] | _ => [p] end)%N.
Example C64_example :
  let s l := run_schedule c64_query 2 true
    (System (Memory ∅ ∅ 0%N) (cluster_slice_start c64_query <$> [[2;1];[3;5;4]]%N) false) l in
  (forall i j ch ch' p q found x, i <> j -> [[2;1];[3;5;4]]%N !! i = Some ch -> [[2;1];[3;5;4]]%N !! j = Some ch' ->
    p ∈ ch -> c64_query p = Some found -> x ∈ found ->
    q ∈ ch' -> x <> q /\ forall found', c64_query q = Some found' -> x ∉ found') /\
  result (s (concat (replicate 40 [0;1]))) = Some [(1, [1;2;7]); (2, [4;3;8])]%N /\
  result (s (replicate 40 1 ++ replicate 40 0)) = Some [(2, [1;2;7]); (1, [4;3;8])]%N /\
  result (run_schedule c64_query 2 true (cluster_start c64_query (Memory ∅ ∅ 0%N) [3;5;4]%N) (replicate 40 0))
    = Some [(1, [4;3;8])]%N.
Proof.
  intros s. split.
  - intros [|[|i]] [|[|j]] ch ch' p q found x Hij Hi Hj Hp Hf Hx Hq; try done;
      cbn in Hi, Hj; try (rewrite lookup_nil in Hi; done); try (rewrite lookup_nil in Hj; done);
      injection Hi as <-; injection Hj as <-; injection Hf as <-;
      repeat (apply elem_of_cons in Hp as [->|Hp] || apply elem_of_nil in Hp; try done);
      repeat (apply elem_of_cons in Hq as [->|Hq] || apply elem_of_nil in Hq; try done);
      (split; [intros ->; cbn in Hx; apply (bool_decide_unpack _) in Hx || set_solver|intros f [= <-]; cbn in *; set_solver]).
  - subst s. vm_compute. split_and!; reflexivity.
Qed.
Print Assumptions C64_finishes.
Print Assumptions C64_as_alone.
Print Assumptions C64_clusters.
Print Assumptions C64_no_sharing.
