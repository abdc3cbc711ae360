(** Two ways of cutting signatures into bands. *)
From Coq Require Import Arith.

(** Both use up the same signatures, and every band of the first way contains a band of the
    second. *)
Definition contains_bands (nb bw nb' bw' : nat) : Prop :=
  nb * bw = nb' * bw' /\
  forall i, i < nb -> exists i', i' < nb' /\ i * bw <= i' * bw' /\ (i' + 1) * bw' <= (i + 1) * bw.
