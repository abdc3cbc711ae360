(** Model of gaoya/src/minhash/minhash_index.rs in a build with debug assertions: [NoOpHasher::finish]
    (69-72) asserts that the hash of a band is not 0. Definitions only; whatever does not look up a
    band key is as in MinHashIndex.v.

    The key is hashed by [entry] (150), [get] (160, 170) and [get_mut] (225). Whether [get] and
    [get_mut] hash the key when the table is empty depends on the version of the standard library:
    [eager] says they do. A growing table hashes the keys it holds again; none of them is 0. *)
From stdpp Require Import base list gmap.
From Coq Require Import NArith.
From Verif Require Import Base Par Float Similarity Container MinHashIndex.

Section Debug.
Context {T : Type} `{!EqDecision T}.
Context {Id : Type} `{Countable Id}.
Context (K : id_container Id) (bh : list T -> N) (eager : bool).
Notation band := (band (carrier K)).
Notation index := (index (carrier K) Id T).

(** minhash_index.rs:147-154 [MinHashBand::insert]. *)
Definition dband_insert (id : Id) (sig : list T) (b : band) : res band :=
  k ← band_key K bh b sig;
  if (k =? 0)%N then Panic
  else let c := default (ic_new K) (hash_table b !! k) in
       Ok (Band (<[k := ic_push K id c]> (hash_table b)) (band_start b) (band_end b)).

(** [get] and [get_mut] of the hash table of a band. *)
Definition dget (b : band) (k : N) : res (option (carrier K)) :=
  if ((k =? 0)%N && (eager || negb (bool_decide (hash_table b = ∅))))%bool then Panic
  else Ok (hash_table b !! k).

(** minhash_index.rs:157-164 [MinHashBand::query] and 167-176 [query_to_owned]. *)
Definition dband_query (sig : list T) (b : band) : res (list Id) :=
  k ← band_key K bh b sig;
  o ← dget b k;
  Ok (match o with Some c => ic_elems K c | None => [] end).

(** minhash_index.rs:222-234 [MinHashBand::remove]. *)
Definition dband_remove (id : Id) (sig : list T) (b : band) : res band :=
  k ← band_key K bh b sig;
  o ← dget b k;
  Ok (match o with
      | Some c =>
          let c' := ic_remove K id c in
          Band (if ic_is_empty K c' then delete k (hash_table b)
                else <[k := c']> (hash_table b))
               (band_start b) (band_end b)
      | None => b
      end).

(** minhash_index.rs:420-426 [insert]. *)
Definition dinsert (id : Id) (sig : list T) (m : index) : index * out T :=
  if decide (num_hashes m = length sig) then
    let r := for_each_mut (dband_insert id sig) (bands m) in
    if r.2 then (set_bands K r.1 m, OPanic)
    else (set_sigs K (<[id := sig]> (id_signatures m)) (set_bands K r.1 m), OUnit)
  else (m, OPanic).

(** minhash_index.rs:450-467 [par_bulk_insert_pairs]. *)
Definition dpar_bulk_insert_pairs (sched : list nat) (pairs : list (Id * list T)) (m : index)
  : index * out T :=
  let r := par_for_each (fun p => dband_insert p.1 p.2) sched pairs (bands m) in
  if r.2 then (set_bands K r.1 m, OPanic)
  else (set_sigs K (insert_all pairs (id_signatures m)) (set_bands K r.1 m), OUnit).

(** minhash_index.rs:428-448 [par_bulk_insert]. *)
Definition dpar_bulk_insert (sched : list nat) (ids : list Id) (sigs : list (list T)) (m : index)
  : index * out T :=
  match sigs with
  | s0 :: _ =>
      if decide (num_hashes m = length s0)
      then dpar_bulk_insert_pairs sched (zip ids sigs) m
      else (m, OPanic)
  | [] => dpar_bulk_insert_pairs sched (zip ids sigs) m
  end.

(** minhash_index.rs:685-696 [remove]. *)
Definition dremove (id : Id) (m : index) : index * out T :=
  match id_signatures m !! id with
  | Some sig =>
      let m1 := set_sigs K (delete id (id_signatures m)) m in
      let r := for_each_mut (dband_remove id sig) (bands m1) in
      (set_bands K r.1 m1, if r.2 then OPanic else OSig (Some sig))
  | None => (m, OSig None)
  end.

(** minhash_index.rs:699-713 [bulk_remove]. *)
Definition dbulk_remove (sched : list nat) (ids : list Id) (m : index) : index * out T :=
  let rs := remove_all ids (id_signatures m) in
  let m1 := set_sigs K rs.1 m in
  let r := par_for_each (fun p => dband_remove p.2 p.1) sched (zip rs.2 ids) (bands m1) in
  (set_bands K r.1 m1, if r.2 then OPanic else OSigs rs.2).

(** One API call. *)
Definition dstep (m : index) (o : op Id T) : index * out T :=
  match o with
  | Insert id sig => dinsert id sig m
  | ParBulkInsert sched ids sigs => dpar_bulk_insert sched ids sigs m
  | ParBulkInsertPairs sched pairs => dpar_bulk_insert_pairs sched pairs m
  | Remove id => dremove id m
  | BulkRemove sched ids => dbulk_remove sched ids m
  | Clear => (clear K m, OUnit)
  | ShrinkToFit => (m, OUnit)
  | ShrinkTo cap min_capacity => shrink_to K cap min_capacity m
  end.
Definition drun (m : index) (ops : list (op Id T)) : index :=
  fold_left (fun m o => (dstep m o).1) ops m.
Fixpoint drun_out (m : index) (ops : list (op Id T)) : list (out T) :=
  match ops with
  | [] => []
  | o :: ops' => (dstep m o).2 :: drun_out (dstep m o).1 ops'
  end.

(** minhash_index.rs:533-536, 548-551, 585-588, 625-628, 644-647. *)
Definition dcandidates (m : index) (q : list T) : res (gset Id) :=
  ls ← mapM (dband_query q) (bands m);
  Ok (list_to_set (concat ls)).

(** minhash_index.rs:546-562 [query] and 580-598 [query_owned]. *)
Definition dquery (m : index) (q : list T) : res (gset Id) :=
  if decide (num_hashes m = length q) then
    cs ← dcandidates m q;
    l ← filter_res (query_keep K m q) (elements cs);
    Ok (list_to_set l)
  else Panic.

(** minhash_index.rs:531-544 [query_one]. *)
Definition dquery_one (order : gset Id -> list Id) (m : index) (q : list T)
  : res (option (Id * f64)) :=
  if decide (num_hashes m = length q) then
    cs ← dcandidates m q;
    l ← mapM (query_one_item K m q) (order cs);
    max_by_unwrap (fun x y => f64_partial_cmp x.2 y.2) (omap id l)
  else Panic.

(** minhash_index.rs:621-640 [query_owned_return_similarity]. *)
Definition dquery_owned_return_similarity (order : gset Id -> list Id)
    (sort : list (Id * f64) -> list (Id * f64)) (m : index) (q : list T)
  : res (list (Id * f64)) :=
  cs ← dcandidates m q;
  l ← mapM (query_sim_item K m q) (order cs);
  sort_by_f64 sort (omap id l).

(** minhash_index.rs:643-658 [query_top_k]. *)
Definition dquery_top_k (order : gset Id -> list Id)
    (sort : list (Id * f64) -> list (Id * f64)) (m : index) (q : list T) (k : nat)
  : res (list (Id * f64)) :=
  cs ← dcandidates m q;
  l ← mapM (query_dist_item K m q) (order cs);
  l' ← sort_by_f64 sort l;
  slice l' 0 (Nat.min (length l') k).
End Debug.

(** The index with containers of kind [k] after a history of calls on a fresh index. *)
Definition dafter {T : Type} {Id : Type} `{Countable Id} (k : container_kind)
    (bh : list T -> N) (eager : bool) (num_bands band_width : nat) (th : f64) (ops : list (op Id T)) :=
  drun (container k Id) bh eager (new_index (container k Id) num_bands band_width th) ops.
