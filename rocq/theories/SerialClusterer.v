(** Model of gaoya/src/clustering/clustering_serial.rs. Definitions only.

    A point is identified by its id: for each id the [Rc] in the point list and the one stored in
    the query index are assumed to be the same object, so one map holds the cell [cluster] of all
    points. [query p] is [query_index.query(p)] in the iteration order of the returned HashSet
    ([None] = it panics); it may be any function of the point. Counters do not overflow. *)
From stdpp Require Import base list gmap.
From Coq Require Import NArith.
From Verif Require Import Base.

(** clustering_serial.rs:54-57 [Cluster]. *)
Record cluster (P : Type) := Cluster { c_id : N; c_points : list P }.
Arguments Cluster {P}.
Arguments c_id {P}.
Arguments c_points {P}.

(** clustering_serial.rs:68-72 [Clusterer]. *)
Record clusterer := Clusterer { cluster_id_sequence : N; min_cluster_size : nat }.

(** clustering_serial.rs:76-82 [new]. *)
Definition clusterer_new (min : nat) : clusterer := Clusterer 0 min.

Section Serial.
Context {P : Type} `{Countable P}.
Context (query : P -> res (list P)).

(** The cells [cluster: Cell<Option<usize>>] (12-15); all start as [None] (23-28). *)
Notation cells := (gmap P N).

(** clustering_serial.rs:111-118 [create_new_cluster]. *)
Fixpoint create_new_cluster (points : list P) (id : N) (m : cells) (acc : list P)
  : cluster P * cells :=
  match points with
  | [] => (Cluster id acc, m)
  | p :: points' => create_new_cluster points' id (<[p := id]> m) (acc ++ [p])
  end.

(** clustering_serial.rs:94-108: the loop. Returns the cells and the clusters pushed, or [None]
    for the clusters if a query panicked. *)
Fixpoint cluster_loop (min : nat) (points : list P) (seq : N) (m : cells)
    (clusters : list (cluster P)) : cells * res (list (cluster P)) :=
  match points with
  | [] => (m, Ok clusters)
  | p :: points' =>
      match m !! p with
      | Some _ => cluster_loop min points' seq m clusters
      | None =>
          match query p with
          | None => (m, Panic)
          | Some found =>
              let similar_points := List.filter (fun x => match m !! x with None => true | _ => false end) found in
              if (min <? length similar_points)%nat then
                let id := (seq + 1)%N in
                let r := create_new_cluster similar_points id m [] in
                cluster_loop min points' id r.2 (clusters ++ [r.1])
              else cluster_loop min points' seq m clusters
          end
      end
  end.

(** clustering_serial.rs:89-109 [cluster]: the clusterer itself is not changed. *)
Definition run_cluster (c : clusterer) (points : list P) (m : cells)
  : cells * res (list (cluster P)) * clusterer :=
  (cluster_loop (min_cluster_size c) points (cluster_id_sequence c) m [], c).
End Serial.
