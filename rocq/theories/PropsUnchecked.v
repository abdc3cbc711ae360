(** C84: the simhash index in builds without overflow checks. *)
From stdpp Require Import base list gmap.
From Coq Require Import NArith ZArith Lia.
From Verif Require Import Base SimHashBits Permutation SimHashIndex SpecSimHash Unchecked UncheckedFacts PropsSimHash.

(** Whenever the checked build returns, the unchecked one returns the same. The words of a signature
    have [W] bits; the loops take at most [W] rounds. *)
Theorem C84_same {Id} `{Countable Id} (W nb d fuel : nat) (room : bool) : (N.of_nat W < 2 ^ 64)%N -> W <= fuel ->
  (forall perms, perm_create W nb d = Some perms -> perm_create_u W room fuel nb d = Done perms) /\
  (forall m : sindex Id, sindex_new W nb d = Some m -> sindex_new_u W room fuel nb d = Done m) /\
  (forall p x r, permute W p x = Some r -> permute_u W p x = r).
Proof.
  intros HW Hf. split; [|split].
  - intros perms. exact (create_same W room fuel nb d perms HW Hf).
  - intros m. exact (new_same W room fuel nb d m HW Hf).
  - intros p x r. exact (permute_same W p x r).
Qed.
Print Assumptions C84_same.

(** The outcome for all arguments: the index, a panic, or a call that never returns. *)
Theorem C84_new {Id} `{Countable Id} (W nb d fuel : nat) (room : bool) : 1 < W -> (N.of_nat W < 2 ^ 64)%N -> W <= fuel ->
  (d <= nb <= W -> exists m : sindex Id, sindex_new_u W room fuel nb d = Done m /\ sindex_new W nb d = Some m) /\
  (nb < d -> sindex_new_u (Id := Id) W room fuel nb d = Panicked) /\
  (d <= nb -> W < nb -> forall fuel', sindex_new_u (Id := Id) W room fuel' nb d = Running).
Proof.
  intros HW1 HW Hf. split; [|split].
  - intros Hd. destruct (C34_create W nb d HW1 Hd) as (perms & E & Hlen & _).
    assert (Hne : perms ≠ []).
    { intros ->. cbn [length Nat.mul] in Hlen. pose proof (lt_O_fact nb). lia. }
    assert (En : exists m : sindex Id, sindex_new W nb d = Some m).
    { unfold sindex_new. rewrite E. cbn [mbind option_bind]. destruct perms; [done|]. by eexists. }
    destruct En as [m En]. exists m. split; [exact (new_same W room fuel nb d m HW Hf En)|exact En].
  - exact (new_panics W room fuel nb d).
  - intros Hd Hlt fuel'. exact (new_hangs W room fuel' nb d Hd Hlt).
Qed.
Print Assumptions C84_new.

(** So a bad number of blocks is not always reported: the checked build panics, the other hangs. *)
Theorem C84_reported_refuted : exists nb d,
  sindex_new (Id := nat) 64 nb d = None /\ forall room fuel, sindex_new_u (Id := nat) 64 room fuel nb d = Running.
Proof.
  exists 65, 3. split; [|intros room fuel; apply new_hangs; lia].
  apply (C34_create_fails (Id := nat) 64 65 3). right. lia.
Qed.
Print Assumptions C84_reported_refuted.

(** ** Concrete cases *)
Example ex_same : perm_create_u 16 true 16 3 1 = match perm_create 16 3 1 with Some l => Done l | None => Panicked end /\
  match perm_create_u 16 true 16 3 1 with Done [_; p; _] => permute_u 16 p 64539 | _ => 0%N end = 57312%N.
Proof. vm_compute. split; reflexivity. Qed.
Example ex_hang : perm_create_u 8 true 1000 9 2 = Running /\ perm_create 8 9 2 = None.
Proof. vm_compute. split; reflexivity. Qed.
Example ex_mask : skip_zeros_u 8 20 64 0 = Done 6%N /\ skip_zeros_u 8 20 0 0 = Running /\ shl_u 8 1 9 = 2%N.
Proof. vm_compute. split_and!; reflexivity. Qed.
