(** What is assumed of the texts inserted into the printed ones, for C87. *)
From stdpp Require Import base strings.
From Coq Require Import Ascii.
From Verif Require Import Base Float.

(** [c] does not occur in [s]. *)
Fixpoint lacks (c : ascii) (s : string) : bool :=
  match s with
  | EmptyString => true
  | String a s' => (negb (Ascii.eqb c a) && lacks c s')%bool
  end.

(** Different floats are printed differently, and without commas. *)
Definition displays (show : f64 -> string) : Prop :=
  (forall x, lacks "," (show x) = true) /\ (forall x y, show x = show y -> x = y).
