(** Property C65: data races of the parallel clusterer. *)
From stdpp Require Import base list gmap.
From Coq Require Import NArith.
From Verif Require Import Base ParallelClusterer SpecParallel ParallelClustererSeparate ParallelClustererRaces PropsParallelClusterer.
Local Open Scope nat_scope.

Section C65.
Context {P : Type} `{Countable P}.
Context (query : P -> option (list P)) (min : nat) (checks : bool) (m0 : memory P) (chunks : list (list P)).
Context (Hquery : forall p found, query p = Some found -> NoDup found).
Context (Hstart : forall x c, cells m0 !! x = Some c -> (c <= sequence m0)%N).
Notation start := (System m0 (cluster_slice_start query <$> chunks) false).
Notation run schedule := (run_schedule query min checks start schedule).
Notation trace schedule := (trace query min checks start schedule).

(** A thread that lost a point to the cluster [c] looks at [c]. Unless [c] was there at the start,
    another thread made it, and the look races with that. *)
Theorem C65_conflict_races (schedule : list nat) i t c :
  undefined (run schedule) = false -> threads (run schedule) !! i = Some t -> conflict t = Some c ->
  (exists x, cells m0 !! x = Some c) \/
  ((exists j, j <> i /\ (j, (c, Init)) ∈ trace schedule) /\ races (trace (schedule ++ [i])) c).
Proof. exact (conflict_races query min checks Hquery m0 chunks Hstart schedule i t c). Qed.

(** There are no other races. *)
Theorem C65_only_conflicts (schedule : list nat) c : races (trace schedule) c ->
  exists n i t, schedule !! n = Some i /\ undefined (run (take n schedule)) = false /\
    threads (run (take n schedule)) !! i = Some t /\ conflict t = Some c.
Proof. exact (race_conflict query min checks Hquery m0 chunks Hstart schedule c). Qed.

(** A single thread, and threads with separated chunks (C64), have no races. *)
Theorem C65_single (ch : list P) (schedule : list nat) c : chunks = [ch] -> ~ races (trace schedule) c.
Proof. exact (single_no_race query min checks m0 chunks ch schedule c). Qed.

Theorem C65_separated (schedule : list nat) c :
  (forall ch p, ch ∈ chunks -> p ∈ ch -> is_Some (query p)) ->
  (forall i j ch ch' p q found x, i <> j -> chunks !! i = Some ch -> chunks !! j = Some ch' ->
    p ∈ ch -> query p = Some found -> x ∈ found ->
    q ∈ ch' -> x <> q /\ forall found', query q = Some found' -> x ∉ found') ->
  ~ races (trace schedule) c.
Proof. exact (separated_no_race query min checks Hquery m0 chunks Hstart schedule c). Qed.
End C65.

(** An execution of [cluster_par] without undefined behaviour, ending with disjoint clusters, that
    has a race. *)
Theorem C65_race_free_refuted :
  exists (query : N -> option (list N)) (min : nat) (points : list N) (s0 : system (P := N))
    (schedule : list nat) cs c,
    (forall p found, query p = Some found -> NoDup found) /\
    cluster_par_start query (Memory ∅ ∅ 0%N) 2 points = Some s0 /\
    result (run_schedule query min true s0 schedule) = Some cs /\ NoDup (concat cs.*2) /\
    races (trace query min true s0 schedule) c.
Proof.
  exists ex_query, 2, [1;4;2;3]%N. eexists.
  exists (by_turns [(0,7);(1,12);(0,20);(1,20)]), [(2, [2;3])]%N, 2%N.
  split. { intros p found [= <-]. destruct p as [|[[]|[]|]]; apply (bool_decide_unpack _); vm_compute; exact I. }
  split; [vm_compute; reflexivity|]. split; [vm_compute; reflexivity|].
  split. { apply (bool_decide_unpack _). vm_compute. exact I. }
  exists 1, 0, Init, Use. split_and!; [| |done|by left].
  all: apply (bool_decide_unpack _); vm_compute; exact I.
Qed.

(** The accesses to the boxes in it, and the conflict that C65_only_conflicts finds. *)
Example C65_example :
  let s l := run_schedule ex_query 2 true (ex_start [1;4;2;3]%N) l in
  let l := by_turns [(0,7);(1,12);(0,20);(1,20)] in
  trace ex_query 2 true (ex_start [1;4;2;3]%N) l =
    [(0,(1%N,Init)); (0,(1%N,Use)); (1,(2%N,Init)); (1,(2%N,Use)); (1,(2%N,Use)); (1,(2%N,Use));
     (0,(1%N,Use)); (0,(2%N,Use)); (0,(1%N,Use)); (0,(1%N,Free))] /\
  (l !! 21, (threads (s (take 21 l)) !! 0) ≫= conflict) = (Some 0, Some 2%N).
Proof. vm_compute. split; reflexivity. Qed.
Print Assumptions C65_conflict_races.
Print Assumptions C65_only_conflicts.
Print Assumptions C65_single.
Print Assumptions C65_separated.
Print Assumptions C65_race_free_refuted.
