(** Property C73: the parallel clusterer under the memory ordering it asks for. *)
From stdpp Require Import base list gmap.
From Coq Require Import NArith.
From Verif Require Import ListFacts Base ParallelClusterer SpecParallel ParallelClustererFacts ParallelClustererSingle
  ParallelClustererSeparate PropsParallelClusterer PropsParallelSeparate
  WeakClusterer WeakFacts WeakRaceFree WeakSeparate.
Local Open Scope nat_scope.

Section C73.
Context {P : Type} `{Countable P}.
Context (query : P -> option (list P)) (min : nat) (checks : bool) (m0 : memory P) (chunks : list (list P)).
Context (Hquery : forall p found, query p = Some found -> NoDup found).
Context (Hstart : forall p a, cells m0 !! p = Some a ->
  (a <= sequence m0)%N /\ boxes m0 !! a = Some (Box COMMITTED false)).
Notation start := (System m0 (cluster_slice_start query <$> chunks) false).
Notation run l := (w_sys (weak_run query min checks (weak_start start) l)).
Notation trace l := (weak_trace query min checks (weak_start start) l).

(** The interleavings of C47 are executions: every load may see the newest value. *)
Theorem C73_sequential (schedule : list nat) : exists l, l.*1 = schedule /\
  run l = run_schedule query min checks start schedule.
Proof. exact (weak_run_newest query min checks (weak_start start) schedule). Qed.

(** The executions are coherent: the position of the newest value of a pointer that a thread has
    seen grows, stays within the values the pointer has had, and is the position just read. *)
Theorem C73_coherent (l : list (nat * nat)) (x : nat * nat) (i : nat) (p : P) :
  let w := weak_run query min checks (weak_start start) l in
  let w' := weak_step query min checks w x in
  view w i p <= view w' i p <= length (earlier w' p) /\ earlier w p `prefix_of` earlier w' p /\
  (forall j t v, x = (i, j) -> threads (w_sys w) !! i = Some t -> old_value w i t j = Some (p, v) ->
    undefined (w_sys w') = false -> view w' i p = j).
Proof.
  intros w w'. pose proof (weak_run_views query min checks _ l (weak_start_views start)) as Hw.
  destruct (weak_coherent query min checks _ x Hw) as [[_ Hv] Hm].
  split; [split; [apply Hm|apply Hv]|]. split; [apply Hm; exact i|].
  intros j t v E Ht Ho Hu. unfold w' in *. rewrite E in *. by eapply weak_read.
Qed.

(** The guarantees of C47 do not depend on which values are seen. *)
Theorem C73_executions (l : list (nat * nat)) :
  let s := run l in
  undefined s = false ->
  NoDup (concat (clusters <$> threads s)).*1 /\
  (forall i t ch a own, threads s !! i = Some t -> chunks !! i = Some ch -> (a, own) ∈ clusters t ->
    (sequence m0 < a <= sequence (mem s))%N /\
    boxes (mem s) !! a = Some (Box COMMITTED false) /\
    NoDup own /\
    exists p found, p ∈ ch /\ query p = Some found /\ own `sublist_of` found) /\
  (forall p a, cells m0 !! p = Some a -> cells (mem s) !! p = Some a) /\
  (forall cs, result s = Some cs -> forall p a, cells (mem s) !! p = Some a ->
    cells m0 !! p = Some a \/ exists own, (a, own) ∈ cs /\ p ∈ own).
Proof.
  intros s Hu. assert (HI : inv query m0 chunks s).
  { apply weak_run_inv; [by constructor|apply start_inv|done]. }
  exact (inv_guarantees query m0 chunks Hquery s HI Hu).
Qed.

(** So does the bound of C56. *)
Theorem C73_wait_free (l : list (nat * nat)) (i : nat) (ch : list P) :
  let visit p := let n := match query p with Some found => length found | None => 0 end in
                 n * (n + 10) + 2 * n + 9 in
  chunks !! i = Some ch ->
  2 + sum_list (visit <$> ch) <= length (filter (fun j => j = i) l.*1) ->
  undefined (run l) = true \/
  exists t, threads (run l) !! i = Some t /\ (at_pc t = Done \/ at_pc t = Panicked).
Proof. exact (weak_wait_free query min checks m0 chunks l i ch). Qed.

(** An execution without a data race (C65) has no undefined behaviour and panics only if a query
    does. The clusters are disjoint, large enough and made of points that were free and now point to
    them. At the end a given point is assigned, or too few of its similar points are left. *)
Theorem C73_race_free (l : list (nat * nat)) :
  (forall c, ~ races (trace l) c) ->
  let s := run l in
  undefined s = false /\
  (forall i t ch, threads s !! i = Some t -> chunks !! i = Some ch -> at_pc t = Panicked ->
    exists p, p ∈ ch /\ query p = None) /\
  NoDup (concat (concat (clusters <$> threads s)).*2) /\
  (forall i t a own, threads s !! i = Some t -> (a, own) ∈ clusters t ->
    min <= length own /\ forall x, x ∈ own -> cells m0 !! x = None /\ cells (mem s) !! x = Some a) /\
  (forall cs, result s = Some cs -> forall ch p, ch ∈ chunks -> p ∈ ch ->
    is_Some (cells (mem s) !! p) \/ exists found, query p = Some found /\
      (filter (fun x => cells (mem s) !! x = None) found = [] \/
       length (filter (fun x => cells (mem s) !! x = None) found) < min)).
Proof. exact (race_free_guarantees query min checks Hquery m0 chunks Hstart l). Qed.

(** With separated chunks (C64), in particular with a single thread, every execution is an
    interleaving: the choices do not matter. *)
Theorem C73_separated (l : list (nat * nat)) :
  (forall ch p, ch ∈ chunks -> p ∈ ch -> is_Some (query p)) ->
  (forall i j ch ch' p q found x, i <> j -> chunks !! i = Some ch -> chunks !! j = Some ch' ->
    p ∈ ch -> query p = Some found -> x ∈ found ->
    q ∈ ch' -> x <> q /\ forall found', query q = Some found' -> x ∉ found') ->
  run l = run_schedule query min checks start l.*1.
Proof.
  intros Hq Hsep. apply sep_same.
  - intros ch p Hch Hp. destruct (Hq ch p Hch Hp) as [found Hf]. exists found. split; [done|]. by eapply Hquery.
  - by apply to_separated.
Qed.

Theorem C73_single (ch : list P) (l : list (nat * nat)) : chunks = [ch] ->
  (forall p, p ∈ ch -> is_Some (query p)) -> run l = run_schedule query min checks start l.*1.
Proof.
  intros E Hq. apply C73_separated.
  - intros ch' p Hch Hp. rewrite E in Hch. apply elem_of_list_singleton in Hch as ->. by apply Hq.
  - intros i j ch1 ch2 p q found x Hij Hi Hj. rewrite E in Hi, Hj.
    destruct i as [|i], j as [|j]; [done| | |]; cbn in *; done.
Qed.
End C73.

(** The second thread starts when the first has finished. If it sees what the first one did, it
    makes a cluster of what is left. But it may still see a point unassigned, lose it, and give up
    although enough unassigned similar points are left. *)
Definition c73_query (p : N) : option (list N) :=
  Some (match p with 1 => [1;2] | 2 => [1;2;3] | 3 => [2;3;4] | 4 => [3;4] | _ => [p] end)%N.
Theorem C73_one_after_the_other_refuted :
  exists (query : N -> option (list N)) (min : nat) (points : list N) (s0 : system (P := N))
    (l : list (nat * nat)) (n k : nat) cs p found,
    (forall p found, query p = Some found -> NoDup found) /\
    cluster_par_start query (Memory ∅ ∅ 0%N) 2 points = Some s0 /\
    l.*1 = replicate n 0 ++ replicate k 1 /\
    (option_map is_done (threads (run_schedule query min true s0 (replicate n 0)) !! 0)) = Some true /\
    is_Some (result (run_schedule query min true s0 l.*1)) /\
    let s := w_sys (weak_run query min true (weak_start s0) l) in
    result s = Some cs /\ p ∈ points /\ cells (mem s) !! p = None /\ query p = Some found /\
    min <= length (filter (fun x => cells (mem s) !! x = None) found).
Proof.
  exists c73_query, 2, [1;3]%N. eexists. exists (replicate 40 (0, 9) ++ replicate 40 (1, 0)), 40, 40, [(1, [1;2])]%N, 3%N, [2;3;4]%N.
  split. { intros p found [= <-]. destruct p as [|[[]|[[]|[]|]|]]; apply (bool_decide_unpack _); vm_compute; exact I. }
  split; [vm_compute; reflexivity|]. split; [vm_compute; reflexivity|]. split; [vm_compute; reflexivity|].
  split; [vm_compute; eexists; reflexivity|]. vm_compute. split_and!; try reflexivity. right. left.
Qed.

(** The same schedule with the newest and with old values; the latter has a race. *)
Example C73_example :
  let s0 := System (Memory ∅ ∅ 0%N) (cluster_slice_start c73_query <$> [[1];[3]]%N) false in
  let run l := w_sys (weak_run c73_query 2 true (weak_start s0) l) in
  result (run (replicate 40 (0, 9) ++ replicate 40 (1, 9))) = Some [(1, [1;2]); (2, [3;4])]%N /\
  result (run (replicate 40 (0, 9) ++ replicate 40 (1, 0))) = Some [(1, [1;2])]%N /\
  weak_trace c73_query 2 true (weak_start s0) (replicate 40 (0, 9) ++ replicate 40 (1, 9)) =
    [(0,(1%N,Init)); (0,(1%N,Use)); (0,(1%N,Use)); (0,(1%N,Use));
     (1,(2%N,Init)); (1,(2%N,Use)); (1,(2%N,Use)); (1,(2%N,Use))] /\
  weak_trace c73_query 2 true (weak_start s0) (replicate 40 (0, 9) ++ replicate 40 (1, 0)) =
    [(0,(1%N,Init)); (0,(1%N,Use)); (0,(1%N,Use)); (0,(1%N,Use));
     (1,(2%N,Init)); (1,(2%N,Use)); (1,(1%N,Use)); (1,(1%N,Use)); (1,(1%N,Use)); (1,(2%N,Use)); (1,(2%N,Free))].
Proof. vm_compute. split_and!; reflexivity. Qed.
(** Thread 1 has not seen that point 2 is assigned, reads the old null, and later the new value. *)
Example C73_coherent_example :
  let s0 := System (Memory ∅ ∅ 0%N) (cluster_slice_start c73_query <$> [[1];[3]]%N) false in
  let at_ n := weak_run c73_query 2 true (weak_start s0) (replicate 40 (0, 9) ++ replicate n (1, 0)) in
  earlier (at_ 0) 2%N = [None] /\ cells (mem (w_sys (at_ 0))) !! 2%N = Some 1%N /\
  (fun n => view (at_ n) 1 2%N) <$> [0; 1; 4; 10] = [0; 0; 0; 1] /\
  ((fun t => old_value (at_ 1) 1 t 0) <$> threads (w_sys (at_ 1)) !! 1) = Some (Some (2%N, None)).
Proof. vm_compute. split_and!; reflexivity. Qed.
Print Assumptions C73_sequential.
Print Assumptions C73_coherent.
Print Assumptions C73_executions.
Print Assumptions C73_wait_free.
Print Assumptions C73_race_free.
Print Assumptions C73_separated.
Print Assumptions C73_single.
Print Assumptions C73_one_after_the_other_refuted.
