(** Vocabulary of C66: averages over token hashes. *)
From stdpp Require Import base list.
From Coq Require Import NArith.
Local Open Scope nat_scope.

Section Expect.
Context {U : Type} `{EqDecision U}.

(** The token hash that gives the tokens [us] the values [l], in order. *)
Fixpoint given (us : list U) (l : list N) (u : U) : N :=
  match us, l with
  | x :: us', v :: l' => if decide (u = x) then v else given us' l' u
  | _, _ => 0%N
  end.

(** [us] are the tokens of [xs] and [ys] without repetition. *)
Definition union_of (us xs ys : list U) : Prop := NoDup us /\ forall u, u ∈ us <-> u ∈ xs \/ u ∈ ys.
(** How many of them are in both. *)
Definition in_both (us xs ys : list U) : nat := length (filter (fun u => u ∈ xs /\ u ∈ ys) us).

(** A set of assignments of hash values to [m] tokens that does not prefer a token: with an
    assignment it has all that hand out the same values differently. *)
Definition impartial (m : nat) (hs : list (list N)) : Prop :=
  NoDup hs /\ forall l, l ∈ hs -> length l = m /\ forall l', l' ≡ₚ l -> l' ∈ hs.

(** The least value of [f] on [l] is taken more than once. *)
Definition tied (f : N -> N) (l : list N) : Prop :=
  1 < length (filter (fun v => Forall (fun w => (f v <= f w)%N) l) l).
Global Instance tied_dec f l : Decision (tied f l).
Proof. unfold tied. apply _. Defined.

(** All assignments of values from [vs]. *)
Fixpoint assignments (vs : list N) (m : nat) : list (list N) :=
  match m with 0 => [[]] | S m' => vs ≫= fun v => cons v <$> assignments vs m' end.
End Expect.
