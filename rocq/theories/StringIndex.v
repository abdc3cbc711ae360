(** Model of gaoya/src/minhash/string_index.rs. Definitions only.

    A text is a list of characters. A file is the list of the results of [reader.lines()]
    ([None] for an [Err], such as a line that is not UTF-8); opening it may fail. FileLines.v
    gets this list from the bytes of the file.
    Not modelled: Display (21-27). The 64-bit document counter is assumed not to overflow. *)
From stdpp Require Import base list gmap.
From Coq Require Import NArith.
From Verif Require Import Base Par Float Container MinHashIndex MinHasher Text.

Definition text := list N.

(** string_index.rs:14-19 [MinHashStringIndex]; the index uses the default container. *)
Record string_index := StringIndex {
  lsh_index : index (carrier (container KHashSet N)) N N;
  min_hash : hasher;
  doc_map : gmap N text;
  doc_id : N;
}.

(** The mutating calls; schedules are those of the parallel hashing and of the parallel
    insertion. *)
Inductive string_op :=
| SInsert (t : text)
| SLoadLines (lines : list (option text))
| SLoadFile (file : option (list (option text)))
| SLoadFileParallel (sched1 sched2 : list nat) (file : option (list (option text))).

Inductive string_out := SUnit | SOk (n : N) | SErr | SPanic.

Section StringIndex.
Context (hash : text -> N) (draws : N -> nat -> nat -> N) (bh : list N -> N).

(** string_index.rs:31-38 [new]. *)
Definition string_new (num_bands band_width : nat) (th : f64) : string_index :=
  StringIndex (new_index (container KHashSet N) num_bands band_width th)
    (new_with_hasher draws (num_bands * band_width)) ∅ 0.

(** The signature of a text: string_index.rs:41, 48, 90. *)
Definition text_signature (m : hasher) (t : text) : res (list N) :=
  create_signature MinHasher64V1 hash m (whitespace_split t).

(** string_index.rs:40-45 [insert]; the flag tells whether it panicked. *)
Definition string_insert (t : text) (s : string_index) : string_index * bool :=
  match text_signature (min_hash s) t with
  | None => (s, true)
  | Some sig =>
      let id := (doc_id s + 1)%N in
      let r := insert (container KHashSet N) bh id sig (lsh_index s) in
      (StringIndex r.1 (min_hash s) (<[id := t]> (doc_map s)) id,
       match r.2 with OPanic => true | _ => false end)
  end.

(** string_index.rs:53-60 [load_from_lines]: bad lines are skipped. *)
Fixpoint load_from_lines (lines : list (option text)) (s : string_index) : string_index * bool :=
  match lines with
  | [] => (s, false)
  | Some line :: lines' =>
      let r := string_insert line s in
      if r.2 then r else load_from_lines lines' r.1
  | None :: lines' => load_from_lines lines' s
  end.

(** string_index.rs:106-108 [size]. *)
Definition string_size (s : string_index) : N := doc_id s.

(** string_index.rs:62-73 [load_from_file]. *)
Definition load_from_file (file : option (list (option text))) (s : string_index)
  : string_index * string_out :=
  match file with
  | Some lines =>
      let r := load_from_lines lines s in
      (r.1, if r.2 then SPanic else SOk (string_size r.1 - string_size s))
  | None => (s, SErr)
  end.

(** string_index.rs:80-84: the ids start at the current [doc_id]; a bad line panics. *)
Fixpoint number_lines (id : N) (lines : list (option text)) : res (list (N * text)) :=
  match lines with
  | [] => Ok []
  | Some line :: lines' => r ← number_lines (id + 1) lines'; Ok ((id, line) :: r)
  | None :: _ => Panic
  end.

(** string_index.rs:75-104 [load_from_file_parallel]. *)
Definition load_from_file_parallel (sched1 sched2 : list nat)
    (file : option (list (option text))) (s : string_index) : string_index * string_out :=
  match file with
  | None => (s, SErr)
  | Some ls =>
      match number_lines (doc_id s) ls with
      | None => (s, SPanic)
      | Some lines =>
          match par_map (fun line => sig ← text_signature (min_hash s) line.2; Ok (line.1, sig))
                  sched1 lines with
          | None => (s, SPanic)
          | Some minhashes =>
              let r := par_bulk_insert_pairs (container KHashSet N) bh sched2 minhashes
                         (lsh_index s) in
              match r.2 with
              | OPanic => (StringIndex r.1 (min_hash s) (doc_map s) (doc_id s), SPanic)
              | _ =>
                  let s' := StringIndex r.1 (min_hash s)
                              (fold_left (fun m line => <[line.1 := line.2]> m) lines (doc_map s))
                              (doc_id s + N.of_nat (length lines)) in
                  (s', SOk (string_size s' - string_size s))
              end
          end
      end
  end.

(** One call. *)
Definition string_step (s : string_index) (o : string_op) : string_index * string_out :=
  match o with
  | SInsert t => let r := string_insert t s in (r.1, if r.2 then SPanic else SUnit)
  | SLoadLines lines => let r := load_from_lines lines s in (r.1, if r.2 then SPanic else SUnit)
  | SLoadFile file => load_from_file file s
  | SLoadFileParallel sched1 sched2 file => load_from_file_parallel sched1 sched2 file s
  end.

Definition string_run (s : string_index) (ops : list string_op) : string_index :=
  fold_left (fun s o => (string_step s o).1) ops s.

(** string_index.rs:47-51 [query]; [order] is the iteration order of the HashSet of ids. *)
Definition string_query (order : gset N -> list N) (s : string_index) (t : text)
  : res (list text) :=
  sig ← text_signature (min_hash s) t;
  ids ← query (container KHashSet N) bh (lsh_index s) sig;
  mapM (fun id => doc_map s !! id) (order ids).
End StringIndex.

(** The index after a history of calls. *)
Definition string_after (hash : text -> N) (draws : N -> nat -> nat -> N) (bh : list N -> N)
    (num_bands band_width : nat) (th : f64) (ops : list string_op) : string_index :=
  string_run hash bh (string_new draws num_bands band_width th) ops.
