(** Model of gaoya/src/simhash/sim_hash_index.rs. Definitions only.

    The private, unused [avg_bucket_count] (86-92, 231-244) is in Helpers.v. Not modelled:
    capacities. *)
From stdpp Require Import base list gmap.
From Coq Require Import NArith.
From Verif Require Import Base Par SimHashBits Permutation.

(** sim_hash_index.rs:15-22 [SimHashTable]. *)
Record table (Id : Type) := Table { t_perm : permutation; t_table : gmap N (list Id) }.
Arguments Table {Id}.
Arguments t_perm {Id}.
Arguments t_table {Id}.

(** sim_hash_index.rs:95-106 [SimHashIndex]. *)
Record sindex (Id : Type) `{Countable Id} := SIndex {
  s_num_blocks : nat;
  s_hamming_distance : nat;
  hash_tables : list (table Id);
  s_signatures : gmap Id N;
  s_size : nat;
}.
Arguments SIndex {Id _ _}.
Arguments s_num_blocks {Id _ _}.
Arguments s_hamming_distance {Id _ _}.
Arguments hash_tables {Id _ _}.
Arguments s_signatures {Id _ _}.
Arguments s_size {Id _ _}.

(** The mutating calls. *)
Inductive sop (Id : Type) :=
| SInsert (id : Id) (sig : N)
| SParBulkInsert (sched : list nat) (ids : list Id) (sigs : list N)
| SParBulkInsertPairs (sched : list nat) (pairs : list (Id * N)).
Arguments SInsert {Id}.
Arguments SParBulkInsert {Id}.
Arguments SParBulkInsertPairs {Id}.

Section SimHashIndex.
Context {Id : Type} `{Countable Id}.
Local Notation table := (table Id).
Local Notation sindex := (sindex Id).

(** sim_hash_index.rs:36-42 [SimHashTable::insert]. *)
Definition table_insert (id : Id) (sig : N) (t : table) : table :=
  let key := N.land sig (simple_mask (t_perm t)) in
  Table (t_perm t) (<[key := default [] (t_table t !! key) ++ [id]]> (t_table t)).

(** sim_hash_index.rs:44-63 [SimHashTable::query]; 65-84 [query_owned] is the same on cloned
    ids. *)
Definition table_query (q : N) (sigs : gmap Id N) (max_distance : nat) (t : table)
    (match_ids : gset Id) : res (gset Id) :=
  let key := N.land q (simple_mask (t_perm t)) in
  match t_table t !! key with
  | Some cands =>
      ms ← filter_res (fun id => s ← sigs !! id;
                                 Ok (hamming_distance q s <? max_distance)%nat) cands;
      Ok (match_ids ∪ list_to_set ms)
  | None => Ok match_ids
  end.

(** sim_hash_index.rs:114-128 [new]; the unused [max_width] panics if there is no table. *)
Definition sindex_new (W num_blocks hamming : nat) : res sindex :=
  perms ← perm_create W num_blocks hamming;
  match perms with
  | [] => Panic
  | _ => Ok (SIndex num_blocks hamming ((fun p => Table p ∅) <$> perms) ∅ 0)
  end.

Definition set_tables (ts : list table) (sg : gmap Id N) (m : sindex) : sindex :=
  SIndex (s_num_blocks m) (s_hamming_distance m) ts sg (s_size m).

(** sim_hash_index.rs:130-135 [insert]. *)
Definition sinsert (id : Id) (sig : N) (m : sindex) : sindex :=
  set_tables (table_insert id sig <$> hash_tables m) (<[id := sig]> (s_signatures m)) m.

(** The body of the parallel loops. *)
Definition sbulk_body (p : Id * N) (t : table) : option table := Some (table_insert p.1 p.2 t).

(** sim_hash_index.rs:154-172 [par_bulk_insert_pairs]. *)
Definition spar_bulk_insert_pairs (sched : list nat) (pairs : list (Id * N)) (m : sindex)
  : sindex :=
  set_tables (par_for_each sbulk_body sched pairs (hash_tables m)).1
    (foldl (fun sg p => <[p.1 := p.2]> sg) (s_signatures m) pairs) m.

(** sim_hash_index.rs:137-152 [par_bulk_insert]. *)
Definition spar_bulk_insert (sched : list nat) (ids : list Id) (sigs : list N) (m : sindex)
  : sindex :=
  set_tables (par_for_each sbulk_body sched (zip ids sigs) (hash_tables m)).1
    (foldl (fun sg p => <[p.1 := p.2]> sg) (s_signatures m) (zip ids sigs)) m.

Definition sstep (m : sindex) (o : sop Id) : sindex :=
  match o with
  | SInsert id sig => sinsert id sig m
  | SParBulkInsert sched ids sigs => spar_bulk_insert sched ids sigs m
  | SParBulkInsertPairs sched pairs => spar_bulk_insert_pairs sched pairs m
  end.

(** The index after a history of calls; [None] if the constructor failed. *)
Definition safter (W num_blocks hamming : nat) (ops : list (sop Id)) : option sindex :=
  m ← sindex_new W num_blocks hamming; Some (foldl sstep m ops).

(** sim_hash_index.rs:183-189 [query] and 191-197 [query_owned]. *)
Definition squery (m : sindex) (q : N) : res (gset Id) :=
  foldl (fun acc t => s ← acc; table_query q (s_signatures m) (s_hamming_distance m) t s)
    (Some ∅) (hash_tables m).
Definition squery_owned (m : sindex) (q : N) : res (gset Id) :=
  foldl (fun acc t => s ← acc; table_query q (s_signatures m) (s_hamming_distance m) t s)
    (Some ∅) (hash_tables m).

(** sim_hash_index.rs:174-181 [query_one]; [order] is the iteration order of the set. *)
Definition squery_one (order : gset Id -> list Id) (m : sindex) (q : N)
  : res (option (Id * nat)) :=
  ids ← squery m q;
  Ok (min_by (fun x y => Nat.compare x.2 y.2)
        (omap (fun id => (fun s => (id, hamming_distance s q)) <$> s_signatures m !! id)
           (order ids))).

(** sim_hash_index.rs:198-205 [query_return_distance]; [sort] is the unstable sort. *)
Definition squery_return_distance (order : gset Id -> list Id)
    (sort : list (Id * nat) -> list (Id * nat)) (m : sindex) (q : N) : res (list (Id * nat)) :=
  ids ← squery m q;
  l ← mapM (fun id => s ← s_signatures m !! id; Ok (id, hamming_distance q s)) (order ids);
  Ok (sort l).

(** sim_hash_index.rs:207-215 [par_bulk_query]. *)
Definition spar_bulk_query (sched : list nat) (m : sindex) (qs : list N) : res (list (gset Id)) :=
  par_map (squery_owned m) sched qs.

(** sim_hash_index.rs:217-225 [par_bulk_query_return_distance]. *)
Definition spar_bulk_query_return_distance (order : gset Id -> list Id)
    (sort : list (Id * nat) -> list (Id * nat)) (sched : list nat) (m : sindex) (qs : list N)
  : res (list (list (Id * nat))) :=
  par_map (squery_return_distance order sort m) sched qs.

(** sim_hash_index.rs:227-229 [size]. *)
Definition ssize (m : sindex) : nat := s_size m.
End SimHashIndex.
