(** rayon: [par_iter_mut().for_each] and [par_iter().map().collect()] under an arbitrary
    schedule.

    Each element is the private state of one task; a task runs its own sequential loop.  A
    schedule is a list of task numbers: each occurrence of [i] lets task [i] run its next loop
    iteration (an iteration is atomic because tasks share no mutable data).  If some task
    panicked while the schedule ran, nothing else runs (rayon may skip or stop the remaining
    work after a panic; every amount of completed work is covered by some schedule).
    Otherwise the remaining work is run to completion. *)
From Verif Require Import Base.

Section ParForEach.
Context {S I : Type}.
(** One loop iteration; [None] = it panics, leaving the state as it was. *)
Variable body : I -> S -> option S.

Record task := Task { t_state : S; t_todo : list I; t_dead : bool }.

Definition task_step (t : task) : task :=
  if t_dead t then t else
  match t_todo t with
  | [] => t
  | x :: rest =>
      match body x (t_state t) with
      | Some s' => Task s' rest false
      | None => Task (t_state t) rest true
      end
  end.

Definition par_steps (sched : list nat) (ts : list task) : list task :=
  fold_left (fun ts i => alter task_step i ts) sched ts.

(** A sequential loop over [items]; the flag says whether it panicked. *)
Fixpoint seq_loop (items : list I) (s : S) : S * bool :=
  match items with
  | [] => (s, false)
  | x :: rest =>
      match body x s with
      | Some s' => seq_loop rest s'
      | None => (s, true)
      end
  end.

Definition task_finish (t : task) : S * bool :=
  if t_dead t then (t_state t, true) else seq_loop (t_todo t) (t_state t).

Definition par_for_each (sched : list nat) (items : list I) (states : list S)
  : list S * bool :=
  let ts := par_steps sched ((fun s => Task s items false) <$> states) in
  if existsb t_dead ts then (t_state <$> ts, true)
  else let r := task_finish <$> ts in (r.*1, existsb snd r).
End ParForEach.

Arguments task : clear implicits.
Arguments Task {S I}.

(** [items.par_iter().map(f).collect()]: every item is a task whose result goes to its own
    slot; the slots are read in order at the end. *)
Section ParMap.
Context {A B : Type}.
Variable f : A -> res B.

Definition map_slot (_ : unit) (s : A * option B) : option (A * option B) :=
  match f s.1 with Some y => Some (s.1, Some y) | None => None end.

Definition par_map (sched : list nat) (items : list A) : res (list B) :=
  match par_for_each map_slot sched [tt] ((fun x => (x, None)) <$> items) with
  | (_, true) => Panic
  | (slots, false) => mapM snd slots
  end.
End ParMap.
