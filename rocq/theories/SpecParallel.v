(** Vocabulary of C64 and C65: which shared locations a thread is about to use. The lines are those of
    clusterer_parallel.rs named at the positions of [pc]. *)
From stdpp Require Import base list gmap.
From Coq Require Import NArith.
From Verif Require Import Base ParallelClusterer.

(** The cell, and the box, the next step of a thread uses. *)
Definition reads_cell {P} (t : thread P) : option P :=
  match at_pc t with
  | Next => head (todo t)
  | Filter qs _ => head qs
  | _ => None
  end.
Definition writes_cell {P} (t : thread P) : option P :=
  match at_pc t with
  | Assign _ _ rest _ => head rest
  | Undo _ _ pending _ => head pending
  | _ => None
  end.
Definition uses_box {P} (t : thread P) : option N :=
  match at_pc t with
  | Check a _ (_ :: _) _ => Some a
  | Conflict1 _ _ _ _ _ c | Conflict2 _ _ _ _ _ c | Conflict3 _ _ _ _ _ c | Conflict4 _ _ _ _ _ c => Some c
  | Fail a _ | Commit a _ => Some a
  | Undo a _ [] None => Some a
  | _ => None
  end.

(** ** Data races on the boxes

    Accesses to the memory of a [Box<Cluster>]: making it (227-228) and dropping it are plain
    writes of the whole box, everything else reads or updates a field of it. *)
Inductive access := Init | Use | Free.
Global Instance access_eq_dec : EqDecision access.
Proof. solve_decision. Defined.

Section Races.
Context {P : Type} `{Countable P}.
Context (query : P -> option (list P)) (min : nat) (checks : bool).

(** The accesses of the next step of a thread, as box and kind. When the retry of line 251 or the
    query of line 204 panics, unwinding drops the own boxes. *)
Definition accesses (m : memory P) (t : thread P) : list (N * access) :=
  let dropped := (fun x => (x.1, Free)) <$> clusters t in
  match at_pc t with
  | Next => match todo t with
            | p :: _ => match cells m !! p, query p with None, None => dropped | _, _ => [] end
            | [] => [] end
  | Alloc _ => [((sequence m + 1)%N, Init)]
  | Check a _ (_ :: _) _ => [(a, Use)]
  | Conflict1 _ _ _ _ _ c | Conflict3 _ _ _ _ _ c | Conflict4 _ _ _ _ _ c => [(c, Use)]
  | Conflict2 a _ _ _ i c =>
      (c, Use) :: if (bool_decide (is_rolled_back m c = Some true) && checks && (i =? 0)%nat)%bool
                  then (a, Free) :: dropped else []
  | Fail a _ | Commit a _ => [(a, Use)]
  | Undo a _ [] None => [(a, Free)]
  | _ => []
  end.

(** All accesses of an execution, in the order of the interleaving, with the thread. *)
Definition accesses_of (s : system (P := P)) (i : nat) : list (nat * (N * access)) :=
  if undefined s then [] else
  match threads s !! i with Some t => (fun e => (i, e)) <$> accesses (mem s) t | None => [] end.
Fixpoint trace (s : system (P := P)) (schedule : list nat) : list (nat * (N * access)) :=
  match schedule with
  | [] => []
  | i :: schedule' => accesses_of s i ++ trace (system_step query min checks s i) schedule'
  end.

(** Two accesses of different threads to one box race unless both are uses. Every atomic operation
    of the code is [Ordering::Relaxed], which orders nothing between threads. *)
Definition races (tr : list (nat * (N * access))) (a : N) : Prop :=
  exists i j x y, (i, (a, x)) ∈ tr /\ (j, (a, y)) ∈ tr /\ i <> j /\ (x <> Use \/ y <> Use).

(** The conflicting box of a thread that lost a compare-exchange (242-258). *)
Definition conflict (t : thread P) : option N :=
  match at_pc t with
  | Conflict1 _ _ _ _ _ c | Conflict2 _ _ _ _ _ c | Conflict3 _ _ _ _ _ c | Conflict4 _ _ _ _ _ c => Some c
  | _ => None
  end.
End Races.
