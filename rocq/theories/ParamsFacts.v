(** Proofs about the parameter search. *)
From stdpp Require Import base list.
From Coq Require Import NArith Lia.
From Verif Require Import Base Float Params.
Local Open Scope nat_scope.

Section Facts.
Context (powf : f64 -> f64 -> f64) (s : f64) (n : nat) (p : f64).

(** Band width [r] passes the probability test. *)
Definition passes (r : nat) : Prop :=
  f64_gt (proba powf s (usize_as_f64 (n / r)) (usize_as_f64 r)) p = true.

Lemma search_spec fuel r : 1 <= r -> n <= fuel + r ->
  exists b' r', search powf fuel s n p (n / r) r = Some (b', r') /\ r <= r' /\ b' = n / r' /\
    (forall w, r < w <= r' -> passes w) /\ (1 < b' -> ~ passes (r' + 1)) /\
    (r' = r \/ r' <= n).
Proof.
  revert r. induction fuel as [|fuel IH]; intros r Hr Hn; cbn [search].
  - assert (n / r <= 1).
    { apply Nat.lt_succ_r. apply Nat.div_lt_upper_bound; lia. }
    destruct (1 <? n / r) eqn:E; [apply Nat.ltb_lt in E; lia|].
    exists (n / r), r. repeat split; auto; intros; lia.
  - destruct (1 <? n / r) eqn:E.
    2:{ apply Nat.ltb_ge in E. exists (n / r), r. repeat split; auto; intros; lia. }
    apply Nat.ltb_lt in E.
    assert (Hrn : r + 1 <= n).
    { pose proof (Nat.mul_div_le n r ltac:(lia)). nia. }
    destruct (f64_gt _ p) eqn:Ep.
    + destruct (IH (r + 1)) as (b' & r' & -> & Hle & -> & Hw & Hs & Hb); [lia..|].
      exists (n / r'), r'. repeat split; auto; try lia.
      intros w Hw'. destruct (decide (w = r + 1)) as [->|]; [exact Ep|apply Hw; lia].
    + exists (n / r), r. repeat split; auto; try (intros; lia).
      intros _ Hp. unfold passes in Hp. congruence.
Qed.

Lemma b_and_r_spec :
  exists b r, calculate_b_and_r powf s n p = Some (b, r) /\ 1 <= r /\ b = n / r /\ b * r <= n /\
    (1 <= n -> 1 <= b /\ r <= n) /\
    (forall w, 2 <= w <= r -> passes w) /\ (1 < b -> ~ passes (r + 1)).
Proof.
  destruct (search_spec n 1) as (b & r & E & Hr & -> & Hw & Hs & Hn); [lia..|].
  unfold calculate_b_and_r. rewrite Nat.div_1_r in E. exists (n / r), r.
  split; [done|]. split; [done|]. split; [done|]. split.
  { rewrite Nat.mul_comm. apply Nat.mul_div_le. lia. }
  split; [|split; [intros; apply Hw; lia|done]].
  intros Hn1. assert (r <= n) by lia. split; [|done].
  apply Nat.div_le_lower_bound; lia.
Qed.
End Facts.
