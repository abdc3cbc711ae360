(** Shared vocabulary of the model: panics, slices, Rust iterator helpers. *)
From stdpp Require Export base list gmap fin_maps fin_sets sets.
From stdpp Require Import numbers.
From Coq Require Import NArith.

(** A computation that may panic.  [Panic] is [None]; a method that itself returns a Rust
    [Option<A>] has type [res (option A)]. *)
Notation res := option (only parsing).
Notation Ok := Some (only parsing).
Notation Panic := None (only parsing).

(** [&v[s..e]]: panics unless [s <= e <= v.len()]. *)
Definition slice {A} (l : list A) (s e : nat) : res (list A) :=
  if decide (s <= e <= length l) then Ok (take (e - s) (drop s l)) else Panic.

(** [for x in &mut v { f(x) }] where the body may panic: elements before the panicking one
    are updated, the others are not; the flag tells whether it panicked. *)
Fixpoint for_each_mut {S} (f : S -> option S) (l : list S) : list S * bool :=
  match l with
  | [] => ([], false)
  | s :: l' =>
      match f s with
      | Some s' => let r := for_each_mut f l' in (s' :: r.1, r.2)
      | None => (s :: l', true)
      end
  end.

(** [Iterator::max_by] (libcore): a left fold keeping the accumulator only when it compares
    [Greater], so the last of several maximal elements is returned. *)
Fixpoint max_by_from {A} (cmp : A -> A -> comparison) (acc : A) (l : list A) : A :=
  match l with
  | [] => acc
  | x :: l' => max_by_from cmp (match cmp acc x with Gt => acc | _ => x end) l'
  end.
Definition max_by {A} (cmp : A -> A -> comparison) (l : list A) : option A :=
  match l with [] => None | x :: l' => Some (max_by_from cmp x l') end.

(** [Iterator::min_by] (libcore): the first minimal element is returned. *)
Fixpoint min_by_from {A} (cmp : A -> A -> comparison) (acc : A) (l : list A) : A :=
  match l with
  | [] => acc
  | x :: l' => min_by_from cmp (match cmp acc x with Gt => x | _ => acc end) l'
  end.
Definition min_by {A} (cmp : A -> A -> comparison) (l : list A) : option A :=
  match l with [] => None | x :: l' => Some (min_by_from cmp x l') end.

(** [max_by(|x,y| x.partial_cmp(y).unwrap())]: as [max_by], but an incomparable pair panics. *)
Fixpoint max_by_unwrap_from {A} (cmp : A -> A -> option comparison) (acc : A) (l : list A)
  : res A :=
  match l with
  | [] => Ok acc
  | x :: l' =>
      match cmp acc x with
      | None => Panic
      | Some Gt => max_by_unwrap_from cmp acc l'
      | Some _ => max_by_unwrap_from cmp x l'
      end
  end.
Definition max_by_unwrap {A} (cmp : A -> A -> option comparison) (l : list A)
  : res (option A) :=
  match l with
  | [] => Ok None
  | x :: l' => Some <$> max_by_unwrap_from cmp x l'
  end.

(** [iter.filter(p)] where evaluating [p] may panic. *)
Fixpoint filter_res {A} (p : A -> res bool) (l : list A) : res (list A) :=
  match l with
  | [] => Ok []
  | x :: l' =>
      keep ← p x;
      rest ← filter_res p l';
      Ok (if (keep : bool) then x :: rest else rest)
  end.
