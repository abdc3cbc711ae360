(** Specification vocabulary for the Python classes: what the calls mean for a plain map from
    ids to token lists. [toks] gives the tokens of a document ([None] if the crate [shingles]
    panics on it). *)
From stdpp Require Import base list gmap.
From Coq Require Import NArith ZArith.
From Verif Require SimHash.
From Verif Require Import Base Text SpecText Float SpecIndex MinHasher StringIndex PyTokenizer PyMinHash PySimHash.

Section Content.
Context (toks : text -> option (list token)).

(** Pairs are stored in order up to the first document without tokens. *)
Fixpoint put (c : gmap Z (list token)) (l : list (Z * option (list token))) : gmap Z (list token) :=
  match l with
  | [] => c
  | (id, Some t) :: l' => put (<[id := t]> c) l'
  | (_, None) :: _ => c
  end.

Definition as_str (t : text) : token := TStr (utf8_text t).

(** The pairs a call asks to store. *)
Definition asked (o : py_op) : list (Z * option (list token)) :=
  match o with
  | InsertDocument id doc => [(id, toks doc)]
  | InsertTokens id t => [(id, Some (map as_str t))]
  | PyRemove _ => []
  | ParBulkInsertDocs _ _ ids docs => zip ids (toks <$> docs)
  | BulkInsertTokens ids ts | ParBulkInsertTokens _ _ ids ts =>
      zip ids ((fun t => Some (map as_str t)) <$> ts)
  end.

Definition missing (l : list (option (list token))) : bool :=
  existsb (fun x => match x with None => true | Some _ => false end) l.

(** From 100 ids on, the whole batch is tokenized before anything is stored. *)
Definition batch_raises (o : py_op) : bool :=
  match o with
  | ParBulkInsertDocs _ _ ids docs => (100 <=? length ids)%nat && missing (toks <$> docs)
  | _ => false
  end.
Definition raises (o : py_op) : bool := missing (asked o).*2 || batch_raises o.

Definition content_step (c : gmap Z (list token)) (o : py_op) : gmap Z (list token) :=
  match o with
  | PyRemove id => delete id c
  | _ => if batch_raises o then c else put c (asked o)
  end.

(** The content after a history of calls on a new object. *)
Definition content (ops : list py_op) : gmap Z (list token) := fold_left content_step ops ∅.

(** No id is stored again while it is present. *)
Fixpoint fresh_put (c : gmap Z (list token)) (l : list (Z * option (list token))) : Prop :=
  match l with
  | (id, Some t) :: l' => c !! id = None /\ fresh_put (<[id := t]> c) l'
  | _ => True
  end.
Fixpoint fresh_from (c : gmap Z (list token)) (ops : list py_op) : Prop :=
  match ops with
  | [] => True
  | o :: ops' => (batch_raises o = false -> fresh_put c (asked o)) /\ fresh_from (content_step c o) ops'
  end.
Definition fresh (ops : list py_op) : Prop := fresh_from ∅ ops.

(** The same for the simhash class. *)
Definition sasked (o : py_sop) : list (Z * option (list token)) :=
  match o with
  | SInsertDocument id doc => [(id, toks doc)]
  | SInsertTokens id t => [(id, Some (map as_str t))]
  | SParBulkInsertDocs _ _ ids docs => zip ids (toks <$> docs)
  | SParBulkInsertTokens _ _ ids ts => zip ids ((fun t => Some (map as_str t)) <$> ts)
  end.
Definition sbatch_raises (o : py_sop) : bool :=
  match o with
  | SParBulkInsertDocs _ _ ids docs => (100 <=? length ids)%nat && missing (toks <$> docs)
  | _ => false
  end.
Definition sraises (o : py_sop) : bool := missing (sasked o).*2 || sbatch_raises o.
Definition scontent_step (c : gmap Z (list token)) (o : py_sop) : gmap Z (list token) :=
  if sbatch_raises o then c else put c (sasked o).
Definition scontent (ops : list py_sop) : gmap Z (list token) := fold_left scontent_step ops ∅.
End Content.

(** The signature of a list of tokens. *)
Definition sig_tokens (hk : hasher_kind) (hash : token -> N) (draws : N -> nat -> nat -> N) (n : nat)
    (t : list token) : list N :=
  default [] (create_signature hk hash (new_with_hasher draws n) t).

(** The simhash signature of a list of tokens. *)
Definition ssig_tokens (W : nat) (hash : token -> N) (t : list token) : N :=
  default 0%N (SimHash.create_signature W W hash t).
