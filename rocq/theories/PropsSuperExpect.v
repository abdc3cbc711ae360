(** Property C71: the expected similarity of SuperMinHash signatures (first variant).

    As in C66, [us] are the distinct tokens of [xs] and [ys], [in_both] the number of those in
    both, and [hs] the token hashes averaged over. The token hash is the seed of the token's
    generator. *)
From stdpp Require Import base list.
From Coq Require Import NArith Lia.
From Verif Require Import Base Float SpecIndex SuperMinHash SpecSuper SpecExpect ExpectBias SuperExpect PropsSuper.
Local Open Scope nat_scope.

Section C71.
Context (shuffle : N -> nat -> list N) (unit1 : N -> nat -> nat -> f32) (m : nat).
Context (Hs : forall t, shuffle t m ≡ₚ (N.of_nat <$> seq 0 m)).
Context (Hu : forall t j, is_unit (unit1 t m j)).
Context (Hm : (N.of_nat m <= 2 ^ 24)%N).
(** What a token with seed [t] offers for position [i]: its rank there plus the draw, truncated. *)
Notation f i := (fun t => f32_as_u32 (f32_add (unit1 t m i) (f32_of_N (default 0%N (shuffle t m !! (i)%nat))))).

Section Family.
Context {U : Type} `{EqDecision U} (us xs ys : list U) (hs : list (list N)).
Context (Hus : union_of us xs ys) (Hhs : impartial (length us) hs).
Notation sig l zs := (v1_create_signature shuffle unit1 m (given us l <$> zs)).
(** The token hashes for which the signatures agree at position [i]. *)
Notation agreeing i := (filter (fun l => (sig l xs ≫= (.!! i)) = (sig l ys ≫= (.!! i))) hs).

(** The signatures agree at least as often as the Jaccard similarity says ... *)
Theorem C71_at_least (i : nat) : i < m -> in_both us xs ys * length hs <= length us * length (agreeing i).
Proof. exact (super_lower shuffle unit1 m Hs Hu Hm us xs ys hs Hus Hhs i). Qed.

(** ... more often only when two tokens offer the same least number ... *)
Theorem C71_at_most (i : nat) : i < m ->
  length us * length (agreeing i) <= in_both us xs ys * length hs + length us * length (filter (tied (f i)) hs).
Proof. exact (super_upper shuffle unit1 m Hs Hu Hm us xs ys hs Hus Hhs i). Qed.

(** ... and exactly as often if no two tokens ever offer the same number. *)
Theorem C71_exact (i : nat) : i < m -> (forall l, l ∈ hs -> NoDup (f i <$> l)) ->
  length us * length (agreeing i) = in_both us xs ys * length hs.
Proof. exact (super_exact shuffle unit1 m Hs Hu Hm us xs ys hs Hus Hhs i). Qed.

Theorem C71_mean (count : list N -> nat) :
  (forall l sx sy, l ∈ hs -> sig l xs = Some sx -> sig l ys = Some sy -> count l = agreements sx sy) ->
  m * (in_both us xs ys * length hs) <= length us * sum_list (count <$> hs).
Proof. exact (super_mean shuffle unit1 m Hs Hu Hm us xs ys hs Hus Hhs count). Qed.
End Family.

(** The offers are at most [m], so with more than [m + 1] tokens some are always equal ... *)
Theorem C71_collide (i : nat) (l : list N) : i < m -> S m < length l -> ~ NoDup (f i <$> l).
Proof. exact (offers_collide shuffle unit1 m i l Hs Hu Hm). Qed.

(** ... and a token of rank 0 offers 0 whatever its draw. Documents with a token of rank 0 for
    every position all have the same signature. *)
Theorem C71_saturated (ts : list N) : (forall j, j < m -> exists t, t ∈ ts /\ shuffle t m !! j = Some 0%N) ->
  v1_create_signature shuffle unit1 m ts = Ok (replicate m 0%N).
Proof. exact (saturated shuffle unit1 m Hs Hu Hm ts). Qed.

(** Documents [xs] and [ys] without a common token, seeds drawn independently from [vs] of which
    [q] give rank 0 at position [i]: the probability of agreement is at least
    (1 - (1 - q/|vs|)^|xs|) (1 - (1 - q/|vs|)^|ys|). *)
Theorem C71_disjoint {U : Type} `{EqDecision U} (xs ys : list U) (vs : list N) (i : nat) : NoDup (xs ++ ys) -> i < m ->
  let sig l zs := v1_create_signature shuffle unit1 m (given (xs ++ ys) l <$> zs) in
  let hs := assignments vs (length (xs ++ ys)) in
  let q := length (filter (fun t => shuffle t m !! i = Some 0%N) vs) in
  length hs = length vs ^ length xs * length vs ^ length ys /\
  (length vs ^ length xs - (length vs - q) ^ length xs) * (length vs ^ length ys - (length vs - q) ^ length ys) <=
  length (filter (fun l => (sig l xs ≫= (.!! i)) = (sig l ys ≫= (.!! i))) hs).
Proof.
  intros Hnd Hi sig hs q. split; [unfold hs; by rewrite assignments_length, app_length, Nat.pow_add_r|].
  exact (disjoint_agree shuffle unit1 m Hs Hu Hm xs ys Hnd vs i Hi).
Qed.
End C71.

(** Seeds that rotate the ranks, all draws one half. *)
Definition rotations (t : N) (m : nat) : list N :=
  (fun j => N.of_nat ((j + N.to_nat t) mod m)) <$> seq 0 m.
Definition halves (t : N) (m j : nat) : f32 := eighths 4.
Lemma rotations_ok t : rotations t 4 ≡ₚ (N.of_nat <$> seq 0 4).
Proof.
  pose proof (Nat.mod_upper_bound (N.to_nat t) 4 ltac:(done)) as Hlt.
  assert (E : rotations t 4 = (fun j => N.of_nat ((j + N.to_nat t mod 4) mod 4)) <$> seq 0 4).
  { apply list_fmap_ext. intros _ j _. by rewrite Nat.add_mod_idemp_r. }
  rewrite E. clear E.
  destruct (N.to_nat t mod 4) as [|[|[|[|]]]]; [| | | |lia]; apply (bool_decide_unpack _); vm_compute; exact I.
Qed.

(** Two documents of four tokens each, none in common, have equal signatures for some seeds, and
    the mean over all seeds is above zero. *)
Theorem C71_unbiased_refuted : exists shuffle unit1 (m : nat) (us xs ys : list N) (vs l : list N),
  (forall t, shuffle t m ≡ₚ (N.of_nat <$> seq 0 m)) /\ (forall t j, is_unit (unit1 t m j)) /\
  union_of us xs ys /\ in_both us xs ys = 0 /\ l ∈ assignments vs (length us) /\ NoDup vs /\
  v1_create_signature shuffle unit1 m (given us l <$> xs) = v1_create_signature shuffle unit1 m (given us l <$> ys) /\
  NoDup l.
Proof.
  exists rotations, halves, 4, [1;2;3;4;5;6;7;8]%N, [1;2;3;4]%N, [5;6;7;8]%N, [0;1;2;3;4;5;6;7]%N, [0;1;2;3;4;5;6;7]%N.
  split; [apply rotations_ok|]. split; [intros t j; by apply eighths_unit|].
  split. { split; [apply (bool_decide_unpack _); vm_compute; exact I|]. intros u. set_solver. }
  split; [done|]. split; [apply assignments_elem; split; [done|set_solver]|].
  split; [apply (bool_decide_unpack _); vm_compute; exact I|]. split; [vm_compute; reflexivity|].
  apply (bool_decide_unpack _); vm_compute; exact I.
Qed.

(** One shared token of three; distinct ranks give a third, all four seeds more. Of the four seeds
    one has rank 0 at each position; two tokens against one are at least 7 of 64 and 16 agree. *)
Example C71_example :
  let us := [1;2;3]%N in let xs := [1;2]%N in let ys := [2;3]%N in
  let agreeing us xs ys i hs := filter (fun l =>
    let sig zs := v1_create_signature rotations halves 4 (given us l <$> zs) in
    (sig xs ≫= (.!! i)) = (sig ys ≫= (.!! i))) hs in
  union_of us xs ys /\ in_both us xs ys = 1 /\
  (length ∘ (fun i => agreeing us xs ys i (permutations [0;1;2]%N)) <$> [0;1;2;3]) = [2;2;2;2] /\
  (length ∘ (fun i => agreeing us xs ys i (assignments [0;1;2;3]%N 3)) <$> [0;1;2;3]) = [36;36;36;36] /\
  length (filter (fun t => rotations t 4 !! 1 = Some 0%N) [0;1;2;3]%N) = 1 /\
  length (agreeing us [1;2]%N [3]%N 1 (assignments [0;1;2;3]%N 3)) = 16 /\
  (4 ^ 2 - 3 ^ 2) * (4 ^ 1 - 3 ^ 1) = 7.
Proof.
  intros us xs ys agreeing.
  split. { split; [apply (bool_decide_unpack _); vm_compute; exact I|]. intros u. set_solver. }
  vm_compute. split_and!; reflexivity.
Qed.
Print Assumptions C71_at_least.
Print Assumptions C71_at_most.
Print Assumptions C71_exact.
Print Assumptions C71_mean.
Print Assumptions C71_collide.
Print Assumptions C71_saturated.
Print Assumptions C71_disjoint.
Print Assumptions C71_unbiased_refuted.
