(** Model of gaoya/src/minhash/minhash_index.rs. Definitions only.

    Elsewhere: Display (330-341) in Display.v; the private unused [filter_by_minhash_similarity]
    (729-744) and [has_ids] (241-249) in Helpers.v; the debug-build-only assertion [hash > 0]
    (70) in DebugBuild.v. Not modelled: capacities (only [capacity()] itself and the decision of
    [shrink_to] depend on them: the capacity is an argument of that operation) and the unused
    field [len] of a band.
    [usize] products such as [num_bands * band_width] are assumed not to overflow; the constructors with
    machine arithmetic are in Constructors.v. *)
From stdpp Require Import base list gmap.
From Coq Require Import NArith.
From Verif Require Import Base Par Float Similarity Container.

(** minhash_index.rs:96-107 [MinHashBand]. The hash table is keyed by [BandKey] (25-56), which
    is compared by its hash only; [NoOpHasher] (60-93) does not affect the map's meaning. *)
Record band (C : Type) := Band {
  hash_table : gmap N C;
  band_start : nat;
  band_end : nat;
}.
Arguments Band {C}.
Arguments hash_table {C}.
Arguments band_start {C}.
Arguments band_end {C}.

(** minhash_index.rs:316-328 [MinHashIndex]. *)
Record index (C Id T : Type) `{Countable Id} := Index {
  bands : list (band C);
  id_signatures : gmap Id (list T);
  threshold : f64;
  idx_r : nat;
  idx_b : nat;
  num_hashes : nat;
}.
Arguments Index {C Id T _ _}.
Arguments bands {C Id T _ _}.
Arguments id_signatures {C Id T _ _}.
Arguments threshold {C Id T _ _}.
Arguments idx_r {C Id T _ _}.
Arguments idx_b {C Id T _ _}.
Arguments num_hashes {C Id T _ _}.

(** minhash_index.rs:816-821 [BandStats]. *)
Record band_stats := BandStats { min_size : nat; max_size : nat; sizes : list nat }.

(** The mutating calls of the API. [sched] is the rayon schedule of the call, [cap] the current
    capacity of the id map. *)
Inductive op (Id T : Type) :=
| Insert (id : Id) (sig : list T)
| ParBulkInsert (sched : list nat) (ids : list Id) (sigs : list (list T))
| ParBulkInsertPairs (sched : list nat) (pairs : list (Id * list T))
| Remove (id : Id)
| BulkRemove (sched : list nat) (ids : list Id)
| Clear
| ShrinkToFit
| ShrinkTo (cap min_capacity : nat).
Arguments Insert {Id T}.
Arguments ParBulkInsert {Id T}.
Arguments ParBulkInsertPairs {Id T}.
Arguments Remove {Id T}.
Arguments BulkRemove {Id T}.
Arguments Clear {Id T}.
Arguments ShrinkToFit {Id T}.
Arguments ShrinkTo {Id T}.

(** What a call returns. *)
Inductive out (T : Type) :=
| OUnit
| OPanic
| OSig (s : option (list T))
| OSigs (s : list (list T)).
Arguments OUnit {T}.
Arguments OPanic {T}.
Arguments OSig {T}.
Arguments OSigs {T}.

Section Index.
Context {T : Type} `{!EqDecision T}.
Context {Id : Type} `{Countable Id}.
Context (K : id_container Id).
(** The AHash of a band slice under the random keys of the index (37-40); all bands of an index
    share the same keys (363, 393). *)
Context (bh : list T -> N).

Notation band := (band (carrier K)).
Notation index := (index (carrier K) Id T).

(** minhash_index.rs:116-127 [MinHashBand::new] (and [new_with_capacity], 129-143). *)
Definition band_new (s e : nat) : band := Band ∅ s e.

(** minhash_index.rs:148-149: slice out the band and hash it; slicing may panic. *)
Definition band_key (b : band) (sig : list T) : res N :=
  bh <$> slice sig (band_start b) (band_end b).

(** minhash_index.rs:147-154 [MinHashBand::insert]. *)
Definition band_insert (id : Id) (sig : list T) (b : band) : res band :=
  k ← band_key b sig;
  let c := default (ic_new K) (hash_table b !! k) in
  Ok (Band (<[k := ic_push K id c]> (hash_table b)) (band_start b) (band_end b)).

(** minhash_index.rs:157-164 [MinHashBand::query] and 167-176 [query_to_owned]: the ids added to
    the result set. *)
Definition band_query (sig : list T) (b : band) : res (list Id) :=
  k ← band_key b sig;
  Ok (match hash_table b !! k with Some c => ic_elems K c | None => [] end).

(** minhash_index.rs:222-234 [MinHashBand::remove]. *)
Definition band_remove (id : Id) (sig : list T) (b : band) : res band :=
  k ← band_key b sig;
  Ok (match hash_table b !! k with
      | Some c =>
          let c' := ic_remove K id c in
          Band (if ic_is_empty K c' then delete k (hash_table b)
                else <[k := c']> (hash_table b))
               (band_start b) (band_end b)
      | None => b
      end).

(** minhash_index.rs:236-238 [MinHashBand::clear]. *)
Definition band_clear (b : band) : band := Band ∅ (band_start b) (band_end b).

(** minhash_index.rs:362-379 [new_index]; [new_with_capacity] (388-410) and [new] (349-351) build
    the same content. *)
Definition new_index (num_bands band_width : nat) (th : f64) : index :=
  Index ((fun i => band_new (i * band_width) ((i + 1) * band_width)) <$> seq 0 num_bands)
        ∅ th band_width num_bands (num_bands * band_width).

Definition set_bands (bs : list band) (m : index) : index :=
  Index bs (id_signatures m) (threshold m) (idx_r m) (idx_b m) (num_hashes m).
Definition set_sigs (sg : gmap Id (list T)) (m : index) : index :=
  Index (bands m) sg (threshold m) (idx_r m) (idx_b m) (num_hashes m).

(** minhash_index.rs:420-426 [insert]: the length assertion comes first; a panic inside a band
    would leave the earlier bands updated. *)
Definition insert (id : Id) (sig : list T) (m : index) : index * out T :=
  if decide (num_hashes m = length sig) then
    let r := for_each_mut (band_insert id sig) (bands m) in
    if r.2 then (set_bands r.1 m, OPanic)
    else (set_sigs (<[id := sig]> (id_signatures m)) (set_bands r.1 m), OUnit)
  else (m, OPanic).

(** minhash_index.rs:438-443 and 455-462: all bands in parallel, each looping over the pairs. *)
Definition bulk_body (p : Id * list T) (b : band) : option band := band_insert p.1 p.2 b.

(** minhash_index.rs:445-447 and 464-466: the id map is filled only after the parallel part. *)
Definition insert_all (pairs : list (Id * list T)) (sg : gmap Id (list T))
  : gmap Id (list T) :=
  fold_left (fun sg p => <[p.1 := p.2]> sg) pairs sg.

(** minhash_index.rs:450-467 [par_bulk_insert_pairs]: no length check. *)
Definition par_bulk_insert_pairs (sched : list nat) (pairs : list (Id * list T)) (m : index)
  : index * out T :=
  let r := par_for_each bulk_body sched pairs (bands m) in
  if r.2 then (set_bands r.1 m, OPanic)
  else (set_sigs (insert_all pairs (id_signatures m)) (set_bands r.1 m), OUnit).

(** minhash_index.rs:428-448 [par_bulk_insert]: only the first signature's length is checked;
    ids and signatures are zipped (the longer list is cut). *)
Definition par_bulk_insert (sched : list nat) (ids : list Id) (sigs : list (list T)) (m : index)
  : index * out T :=
  match sigs with
  | s0 :: _ =>
      if decide (num_hashes m = length s0)
      then par_bulk_insert_pairs sched (zip ids sigs) m
      else (m, OPanic)
  | [] => par_bulk_insert_pairs sched (zip ids sigs) m
  end.

(** minhash_index.rs:685-696 [remove]: the id leaves the map first, then every band. *)
Definition remove (id : Id) (m : index) : index * out T :=
  match id_signatures m !! id with
  | Some sig =>
      let m1 := set_sigs (delete id (id_signatures m)) m in
      let r := for_each_mut (band_remove id sig) (bands m1) in
      (set_bands r.1 m1, if r.2 then OPanic else OSig (Some sig))
  | None => (m, OSig None)
  end.

(** minhash_index.rs:703-705: [ids.iter().filter_map(|id| self.id_signatures.remove(id))]. *)
Fixpoint remove_all (ids : list Id) (sg : gmap Id (list T))
  : gmap Id (list T) * list (list T) :=
  match ids with
  | [] => (sg, [])
  | id :: ids' =>
      match sg !! id with
      | Some s => let r := remove_all ids' (delete id sg) in (r.1, s :: r.2)
      | None => remove_all ids' sg
      end
  end.

(** minhash_index.rs:707-711: the removed signatures are zipped with the *given* ids, so they
    are paired with the wrong ids as soon as one id was absent. *)
Definition bulk_remove_body (p : list T * Id) (b : band) : option band :=
  band_remove p.2 p.1 b.

(** minhash_index.rs:699-713 [bulk_remove]. *)
Definition bulk_remove (sched : list nat) (ids : list Id) (m : index) : index * out T :=
  let rs := remove_all ids (id_signatures m) in
  let m1 := set_sigs rs.1 m in
  let r := par_for_each bulk_remove_body sched (zip rs.2 ids) (bands m1) in
  (set_bands r.1 m1, if r.2 then OPanic else OSigs rs.2).

(** minhash_index.rs:498-501 [clear]. *)
Definition clear (m : index) : index :=
  set_sigs ∅ (set_bands (band_clear <$> bands m) m).

(** minhash_index.rs:488: [band.hash_table.len() as f64 / self.id_signatures.len() as f64]. *)
Definition shrink_ratio (m : index) (b : band) : f64 :=
  f64_div (f64_of_N (N.of_nat (size (hash_table b))))
          (f64_of_N (N.of_nat (size (id_signatures m)))).

(** minhash_index.rs:478-495 [shrink_to]: nothing happens when [min_capacity] exceeds the
    capacity; otherwise each band asserts [ratio < 1.0]. Changing capacities does not change
    the content. *)
Definition shrink_to (cap min_capacity : nat) (m : index) : index * out T :=
  if Nat.ltb cap min_capacity then (m, OUnit)
  else if forallb (fun b => f64_lt (shrink_ratio m b) f64_one) (bands m)
       then (m, OUnit) else (m, OPanic).

(** One API call. *)
Definition step (m : index) (o : op Id T) : index * out T :=
  match o with
  | Insert id sig => insert id sig m
  | ParBulkInsert sched ids sigs => par_bulk_insert sched ids sigs m
  | ParBulkInsertPairs sched pairs => par_bulk_insert_pairs sched pairs m
  | Remove id => remove id m
  | BulkRemove sched ids => bulk_remove sched ids m
  | Clear => (clear m, OUnit)
  | ShrinkToFit => (m, OUnit)
  | ShrinkTo cap min_capacity => shrink_to cap min_capacity m
  end.

(** A history of calls; the object survives a panicking call (the Python binding turns the
    panic into an exception). *)
Definition run (m : index) (ops : list (op Id T)) : index :=
  fold_left (fun m o => (step m o).1) ops m.

(** The outputs of a history. *)
Fixpoint run_out (m : index) (ops : list (op Id T)) : list (out T) :=
  match ops with
  | [] => []
  | o :: ops' => (step m o).2 :: run_out (step m o).1 ops'
  end.

(** minhash_index.rs:503-505 [get_signature]. *)
Definition get_signature (m : index) (id : Id) : option (list T) := id_signatures m !! id.

(** minhash_index.rs:715-717 [size]. *)
Definition index_size (m : index) : nat := size (id_signatures m).

(** minhash_index.rs:533-536, 548-551, 585-588, 625-628, 644-647: the union of the band
    buckets. *)
Definition candidates (m : index) (q : list T) : res (gset Id) :=
  ls ← mapM (band_query q) (bands m);
  Ok (list_to_set (concat ls)).

(** minhash_index.rs:553-560 and 590-597: the closure of [retain]. *)
Definition query_keep (m : index) (q : list T) (id : Id) : res bool :=
  match id_signatures m !! id with
  | Some sig => s ← compute_minhash_similarity sig q; Ok (f64_ge s (threshold m))
  | None => Ok false
  end.

(** minhash_index.rs:546-562 [query]. The order in which [retain] visits the ids does not
    matter: the closure has no effects and any panic aborts the call. *)
Definition query (m : index) (q : list T) : res (gset Id) :=
  if decide (num_hashes m = length q) then
    cs ← candidates m q;
    l ← filter_res (query_keep m q) (elements cs);
    Ok (list_to_set l)
  else Panic.

(** minhash_index.rs:580-598 [query_owned]: the same text with cloned ids. *)
Definition query_owned (m : index) (q : list T) : res (gset Id) :=
  if decide (num_hashes m = length q) then
    cs ← candidates m q;
    l ← filter_res (query_keep m q) (elements cs);
    Ok (list_to_set l)
  else Panic.

(** minhash_index.rs:565-570 [query_by_id]; 823-838 [QueryIndex::query] has the same body. *)
Definition query_by_id (m : index) (id : Id) : res (gset Id) :=
  match id_signatures m !! id with
  | Some sig => query m sig
  | None => Ok ∅
  end.

(** minhash_index.rs:573-578 [query_by_id_owned]. *)
Definition query_by_id_owned (m : index) (id : Id) : res (gset Id) :=
  match id_signatures m !! id with
  | Some sig => query_owned m sig
  | None => Ok ∅
  end.

(** minhash_index.rs:823-838 [<MinHashIndex as QueryIndex>::query]. *)
Definition query_index_query (m : index) (id : Id) : res (gset Id) :=
  match id_signatures m !! id with
  | Some sig => query m sig
  | None => Ok ∅
  end.

(** minhash_index.rs:538-542: one candidate of [query_one]; ids without a signature are
    filtered out. *)
Definition query_one_item (m : index) (q : list T) (id : Id) : res (option (Id * f64)) :=
  match id_signatures m !! id with
  | Some sig =>
      s ← compute_minhash_similarity sig q;
      Ok (if f64_gt s (threshold m) then Some (id, s) else None)
  | None => Ok None
  end.

(** minhash_index.rs:531-544 [query_one]. [order] is the iteration order of the HashSet of
    candidates. *)
Definition query_one (order : gset Id -> list Id) (m : index) (q : list T)
  : res (option (Id * f64)) :=
  if decide (num_hashes m = length q) then
    cs ← candidates m q;
    l ← mapM (query_one_item m q) (order cs);
    max_by_unwrap (fun x y => f64_partial_cmp x.2 y.2) (omap id l)
  else Panic.

(** [sort_unstable_by(|a, b| a.1.partial_cmp(&b.1).unwrap())]: with two or more elements every
    element takes part in some comparison, so a NaN panics; otherwise the result is whatever
    [sort] returns. *)
Definition sort_by_f64 (sort : list (Id * f64) -> list (Id * f64)) (l : list (Id * f64))
  : res (list (Id * f64)) :=
  if (Nat.leb 2 (length l) && existsb (fun p => f64_is_nan p.2) l)%bool then Panic
  else Ok (sort l).

(** minhash_index.rs:630-636: one candidate; [self.id_signatures[&id]] panics if absent. *)
Definition query_sim_item (m : index) (q : list T) (id : Id) : res (option (Id * f64)) :=
  sig ← id_signatures m !! id;
  s ← compute_minhash_similarity sig q;
  Ok (if f64_ge s (threshold m) then Some (id, s) else None).

(** minhash_index.rs:621-640 [query_owned_return_similarity]: no length assertion. [sort] sorts
    by descending similarity. *)
Definition query_owned_return_similarity (order : gset Id -> list Id)
    (sort : list (Id * f64) -> list (Id * f64)) (m : index) (q : list T)
  : res (list (Id * f64)) :=
  cs ← candidates m q;
  l ← mapM (query_sim_item m q) (order cs);
  sort_by_f64 sort (omap id l).

(** minhash_index.rs:648-655: one candidate of [query_top_k]. *)
Definition query_dist_item (m : index) (q : list T) (id : Id) : res (Id * f64) :=
  sig ← id_signatures m !! id;
  d ← compute_minhash_distance q sig;
  Ok (id, d).

(** minhash_index.rs:643-658 [query_top_k]. [sort] sorts by ascending distance. *)
Definition query_top_k (order : gset Id -> list Id)
    (sort : list (Id * f64) -> list (Id * f64)) (m : index) (q : list T) (k : nat)
  : res (list (Id * f64)) :=
  cs ← candidates m q;
  l ← mapM (query_dist_item m q) (order cs);
  l' ← sort_by_f64 sort l;
  slice l' 0 (Nat.min (length l') k).

(** minhash_index.rs:600-608 [par_bulk_query]. *)
Definition par_bulk_query (sched : list nat) (m : index) (qs : list (list T))
  : res (list (gset Id)) :=
  par_map (query_owned m) sched qs.

(** minhash_index.rs:610-618 [par_bulk_query_return_similarity]. *)
Definition par_bulk_query_return_similarity (order : gset Id -> list Id)
    (sort : list (Id * f64) -> list (Id * f64)) (sched : list nat) (m : index)
    (qs : list (list T)) : res (list (list (Id * f64))) :=
  par_map (query_owned_return_similarity order sort m) sched qs.

(** minhash_index.rs:800-811 [band_sizes]: [max().unwrap()] panics without bands. *)
Definition band_sizes (m : index) : res band_stats :=
  let l := (fun b => size (hash_table b)) <$> bands m in
  mx ← max_by Nat.compare l;
  mn ← min_by Nat.compare l;
  Ok (BandStats mn mx l).
End Index.

(** The index with containers of kind [k] after a history of calls on a fresh index. *)
Definition after {T : Type} {Id : Type} `{Countable Id} (k : container_kind)
    (bh : list T -> N) (num_bands band_width : nat) (th : f64) (ops : list (op Id T)) :=
  run (container k Id) bh (new_index (container k Id) num_bands band_width th) ops.
