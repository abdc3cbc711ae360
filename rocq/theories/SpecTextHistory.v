(** Vocabulary of C106: the documents of a string index after any history, with the documents they
    replaced. *)
From stdpp Require Import base list gmap.
From Coq Require Import NArith.
From Verif Require Import Base Float Text MinHasher StringIndex SpecIndex SpecString.

(** A document that replaced nothing. *)
Definition anew (t : text) : text * option text := (t, None).

(** The documents that are there, each with the one it replaced: a parallel load that adds something
    right after a document was added one by one replaces that document by its first. The flag tells
    whether the last document was added one by one. *)
Definition held_step (a : list (text * option text) * bool) (o : string_op) : list (text * option text) * bool :=
  match adds o with
  | [] => a
  | t :: ts =>
      if parallel o then
        match a.2, last a.1 with
        | true, Some e => (take (length a.1 - 1) a.1 ++ (t, Some e.1) :: (anew <$> ts), false)
        | _, _ => (a.1 ++ (anew <$> t :: ts), false)
        end
      else (a.1 ++ (anew <$> t :: ts), true)
  end.
Definition held (ops : list string_op) : list (text * option text) := (fold_left held_step ops ([], false)).1.

(** The documents that were replaced. *)
Definition lost (l : list (text * option text)) : list text := omap snd l.

(** How many parallel loads come right after a document added one by one and add something. *)
Fixpoint losses (one_by_one : bool) (ops : list string_op) : nat :=
  match ops with
  | [] => 0
  | o :: ops' =>
      (if parallel o && one_by_one && negb (bool_decide (adds o = [])) then 1 else 0) +
      losses (match adds o with [] => one_by_one | _ => negb (parallel o) end) ops'
  end.

(** A document is answered if it is similar to the query and it, or the document it replaced, agrees with
    the query on the hash of some band. *)
Section Texts.
Context (hash : text -> N) (draws : N -> nat -> nat -> N) (bh : list N -> N).
Context (nb bw : nat) (th : f64).

Definition answered (q : text) (e : text * option text) : Prop :=
  similar hash draws nb bw th q e.1 /\
  (meets hash draws bh nb bw q e.1 \/
   match e.2 with Some t => meets hash draws bh nb bw q t | None => False end).
End Texts.

Global Instance answered_dec hash draws bh nb bw th q e : Decision (answered hash draws bh nb bw th q e).
Proof. unfold answered. destruct e as [t [t'|]]; apply _. Defined.
