(** Model of py-gaoya/examples/deduplication_scholarly_articles_gaoya.ipynb, the example that
    finds duplicates in a table of articles. Definitions only.

    A table is the list of ids [core_id] with the list of texts [combined_text], of the same
    length. Loading the data set, the time measurements and the rounding of the printed
    accuracy are not modelled. An uncaught exception in a cell is [None]. *)
From stdpp Require Import base list gmap strings.
From Coq Require Import NArith ZArith.
From Verif Require Import Base Float MinHasher Text StringIndex PyTokenizer PyMinHash.

(** deduplication_scholarly_articles_gaoya.ipynb:362: the constructor call. *)
Definition notebook_threshold : f64 := f64_div (f64_of_N 1) (f64_of_N 2).
Definition notebook_index (powf : f64 -> f64 -> f64) (draws : N -> nat -> nat -> N) : made class_index :=
  class_new powf draws 32 notebook_threshold (Some 50) (Some 4) None (Named "char") (Some false)
    (Some (3, 4)%nat) "set".

(** Python's [list.remove]: the first occurrence goes; [ValueError] if there is none. *)
Fixpoint list_remove (x : Z) (l : list Z) : option (list Z) :=
  match l with
  | [] => None
  | y :: l' => if decide (x = y) then Some l' else cons y <$> list_remove x l'
  end.

(** ipynb:676: [row['predicted_duplicates'].remove(row['core_id'])] for every row. *)
Definition remove_self (ids : list Z) (rows : list (list Z)) : option (list (list Z)) :=
  mapM (fun p => list_remove p.1 p.2) (zip ids rows).

Section Notebook.
Context (lower : text -> text)
        (shingles_str : list N -> nat -> option (list (list N)))
        (shingles_words : list (list N) -> nat -> option (list (list (list N)))).
Context (hash : token -> N) (bh : list N -> N).
Context (order : gset Z -> list Z).

(** ipynb:410, 658, 676: insertion of the table, query of the table, removal of each row's own
    id. The schedules are those of the two parallel calls. *)
Definition deduplicate (s1 s2 s3 s4 : list nat) (m : class_index) (ids : list Z) (docs : list text)
  : option (list (list Z)) :=
  let r := class_step lower shingles_str shingles_words hash bh m (CParBulkInsertDocs s1 s2 ids docs) in
  if r.2 then None
  else rows ← class_par_bulk_query lower shingles_str shingles_words hash bh order s3 s4 r.1 docs;
       remove_self ids rows.
End Notebook.

(** ipynb:694: [Correct]. *)
Definition correct (labelled predicted : list Z) : bool :=
  bool_decide (list_to_set labelled =@{gset Z} list_to_set predicted).

(** [len(a) / len(b)]; exact division of sizes rounded once, as Python does below 2^53. *)
Definition size_ratio (a b : gset Z) : f64 :=
  f64_div (f64_of_N (N.of_nat (size a))) (f64_of_N (N.of_nat (size b))).

(** ipynb:744-749 [_recall]. *)
Definition recall (labelled predicted : list Z) : f64 :=
  let labelled_dups : gset Z := list_to_set labelled in
  if (size labelled_dups =? 0)%nat then f64_one
  else let dups : gset Z := list_to_set predicted in
       size_ratio (dups ∩ labelled_dups) labelled_dups.

(** ipynb:781-787 [_precision]. *)
Definition precision (labelled predicted : list Z) : f64 :=
  let labelled_dups : gset Z := list_to_set labelled in
  let dups : gset Z := list_to_set predicted in
  if (size dups =? 0)%nat then f64_of_N 0
  else size_ratio (dups ∩ labelled_dups) dups.
