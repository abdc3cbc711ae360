(** Model of gaoya/src/clustering/clusterer_parallel.rs under the memory ordering it asks for:
    every atomic operation is [Ordering::Relaxed] (40, 53-58, 112, 118, 123, 127, 201, 226, 283-288).
    Definitions only.

    ParallelClusterer.v lets every load see the newest value. Here a load of a point's pointer may
    return any earlier value of that pointer, as long as the thread has not read or written a newer
    one (coherence); so may a compare-exchange that fails. A compare-exchange that succeeds, and
    [fetch_add], work on the newest value (atomicity). A load of the state of a cluster may return
    the initial state although it has changed; that a thread which has seen the change cannot do
    so again is not demanded here. The compare-exchange of 283-288 finds the own box only if it is
    the newest value, and then the thread has written that value itself and reads no older one.
    Excluded are only values that are not written yet when they are read
    (load buffering). A thread starts with the newest values (rayon synchronises there). *)
From stdpp Require Import base list gmap.
From Coq Require Import NArith.
From Verif Require Import Base ParallelClusterer SpecParallel.

Section Weak.
Context {P : Type} `{Countable P}.
Context (query : P -> res (list P)).
Context (min : nat) (overflow_checks : bool).
Notation memory := (memory P).
Notation thread := (thread P).
Notation system := (system (P := P)).

(** [past] has the values a pointer had before its present one, oldest first; [views] has for each
    thread and point the position, in the list of past and present values, of the newest value the
    thread has read or written. *)
Record weak := Weak {
  w_sys : system;
  past : gmap P (list (option N));
  views : list (gmap P nat);
}.

Definition earlier (w : weak) (p : P) : list (option N) := default [] (past w !! p).
Definition view (w : weak) (i : nat) (p : P) : nat := default 0 (default ∅ (views w !! i) !! p).

(** The pointer that the next step of a thread reads and acts on (201, 205, 238). *)
Definition looks_at (t : thread) : option P :=
  match at_pc t with
  | Next => head (todo t)
  | Filter qs _ => head qs
  | Assign _ _ rest _ => head rest
  | _ => None
  end.
Definition exchanges (t : thread) : bool := match at_pc t with Assign _ _ _ _ => true | _ => false end.

(** The choice [j] of the environment: the position of the old value that is read. None if the
    newest value is read: other choices are not coherent, and a compare-exchange from null cannot
    fail because of an old null. *)
Definition old_value (w : weak) (i : nat) (t : thread) (j : nat) : option (P * option N) :=
  p ← looks_at t;
  if (view w i p <=? j)%nat then
    v ← earlier w p !! j;
    if (exchanges t && negb (bool_decide (is_Some v)))%bool then None else Some (p, v)
  else None.

(** The cluster whose initial state is read (123, 127), if [j] is 0. *)
Definition old_state (t : thread) (j : nat) : option N :=
  if (j =? 0)%nat then
    match at_pc t with
    | Check a _ (_ :: _) _ => Some a
    | Conflict1 _ _ _ _ _ c | Conflict2 _ _ _ _ _ c => Some c
    | _ => None
    end
  else None.

(** The memory as the thread sees it. *)
Definition seen (w : weak) (i : nat) (t : thread) (j : nat) : memory :=
  let m := mem (w_sys w) in
  match old_value w i t j with
  | Some (p, v) => set_cells (partial_alter (fun _ => v) p (cells m)) m
  | None =>
      match old_state t j with
      | Some c => match boxes m !! c with Some b => set_box c (Box 0 (freed b)) m | None => m end
      | None => m
      end
  end.

(** One step of a thread; a step that reads an old value does not write it back. *)
Definition weak_thread_step (w : weak) (i : nat) (t : thread) (j : nat) : option (memory * thread) :=
  let m := mem (w_sys w) in
  r ← thread_step query min overflow_checks (seen w i t j) t;
  Some (match old_value w i t j with
        | Some _ => Memory (cells m) (boxes r.1) (sequence r.1)
        | None => match old_state t j with Some _ => m | None => r.1 end
        end, r.2).

(** The pointer whose value changes, and the position a thread has read or written afterwards. *)
Definition changed (m m' : memory) (t : thread) : option P :=
  p ← writes_cell t; if decide (cells m !! p = cells m' !! p) then None else Some p.
Definition position (w : weak) (i : nat) (t : thread) (j : nat) (p : P) : nat :=
  match old_value w i t j with Some _ => j | None => length (earlier w p) end.

Definition set_view (i : nat) (p : P) (n : nat) (vs : list (gmap P nat)) : list (gmap P nat) :=
  alter (fun v => <[p := n]> v) i vs.

Definition weak_step (w : weak) (x : nat * nat) : weak :=
  let (i, j) := x in
  let s := w_sys w in
  if undefined s then w else
  match threads s !! i with
  | None => w
  | Some t =>
      match weak_thread_step w i t j with
      | None => Weak (System (mem s) (threads s) true) (past w) (views w)
      | Some (m', t') =>
          let s' := System m' (<[i := t']> (threads s)) false in
          match changed (mem s) m' t with
          | Some p => Weak s' (<[p := earlier w p ++ [cells (mem s) !! p]]> (past w))
                        (set_view i p (length (earlier w p) + 1) (views w))
          | None =>
              match looks_at t with
              | Some p => Weak s' (past w) (set_view i p (position w i t j p) (views w))
              | None => Weak s' (past w) (views w)
              end
          end
      end
  end.

(** An execution is the list of the threads that take the steps, with the choices. *)
Definition weak_run (w : weak) (l : list (nat * nat)) : weak := fold_left weak_step l w.
Definition weak_start (s : system) : weak := Weak s ∅ (replicate (length (threads s)) ∅).

(** The accesses to boxes, as in SpecParallel.v. *)
Definition weak_accesses (w : weak) (x : nat * nat) : list (nat * (N * access)) :=
  if undefined (w_sys w) then [] else
  match threads (w_sys w) !! x.1 with
  | Some t => (fun e => (x.1, e)) <$> accesses query overflow_checks (seen w x.1 t x.2) t
  | None => []
  end.
Fixpoint weak_trace (w : weak) (l : list (nat * nat)) : list (nat * (N * access)) :=
  match l with
  | [] => []
  | x :: l' => weak_accesses w x ++ weak_trace (weak_step w x) l'
  end.
End Weak.
Arguments weak : clear implicits.
Arguments weak P {_ _}.
