(** Specification vocabulary for the string index: the documents a history adds and keeps. *)
From stdpp Require Import base list gmap.
From Coq Require Import NArith.
From Verif Require Import Base Float Text MinHasher StringIndex SpecIndex.

(** The documents a call adds. *)
Definition readable (file : option (list (option text))) : list text :=
  match file with Some lines => omap id lines | None => [] end.
Definition all_readable (file : option (list (option text))) : bool :=
  match file with Some lines => bool_decide (None ∉ lines) | None => true end.

Definition adds (o : string_op) : list text :=
  match o with
  | SInsert t => [t]
  | SLoadLines lines => readable (Some lines)
  | SLoadFile file => readable file
  | SLoadFileParallel _ _ file => if all_readable file then readable file else []
  end.

Definition parallel (o : string_op) : bool :=
  match o with SLoadFileParallel _ _ _ => true | _ => false end.

(** All documents ever added. *)
Definition added (ops : list string_op) : list text := concat (adds <$> ops).

(** The documents still there: a parallel load that adds something right after a document was
    added one by one replaces that document. The flag tells whether the last document was added
    one by one. *)
Definition live_step (a : list text * bool) (o : string_op) : list text * bool :=
  match adds o with
  | [] => a
  | ts =>
      if parallel o then ((if a.2 then take (length a.1 - 1) a.1 else a.1) ++ ts, false)
      else (a.1 ++ ts, true)
  end.
Definition live (ops : list string_op) : list text := (fold_left live_step ops ([], false)).1.

(** What each call returns. *)
Definition string_spec_out (o : string_op) : string_out :=
  match o with
  | SInsert _ | SLoadLines _ => SUnit
  | SLoadFile None | SLoadFileParallel _ _ None => SErr
  | SLoadFile (Some _) => SOk (N.of_nat (length (adds o)))
  | SLoadFileParallel _ _ file =>
      if all_readable file then SOk (N.of_nat (length (adds o))) else SPanic
  end.

(** Similarity of two texts by their signatures, and agreement of some band hash. *)
Section Texts.
Context (hash : text -> N) (draws : N -> nat -> nat -> N) (bh : list N -> N).
Context (nb bw : nat) (th : f64).

Definition sig_of (t : text) : list N :=
  default [] (create_signature MinHasher64V1 hash (new_with_hasher draws (nb * bw))
                (whitespace_split t)).
Definition similar (q t : text) : Prop := f64_ge (sim (sig_of t) (sig_of q)) th = true.
Definition meets (q t : text) : Prop :=
  Exists (fun i => bh (nth_band bw i (sig_of t)) = bh (nth_band bw i (sig_of q))) (seq 0 nb).
End Texts.

Global Instance similar_dec hash draws nb bw th q t : Decision (similar hash draws nb bw th q t).
Proof. unfold similar. apply _. Defined.
Global Instance meets_dec hash draws bh nb bw q t : Decision (meets hash draws bh nb bw q t).
Proof. unfold meets. apply _. Defined.

(** A history that never loads in parallel right after a document added one by one. *)
Fixpoint lossless_from (one_by_one : bool) (ops : list string_op) : Prop :=
  match ops with
  | [] => True
  | o :: ops' =>
      (parallel o = true -> one_by_one = true -> adds o = []) /\
      lossless_from (match adds o with [] => one_by_one | _ => negb (parallel o) end) ops'
  end.
Definition lossless (ops : list string_op) : Prop := lossless_from false ops.
