(** Property C66: the expected similarity of minhash signatures.

    [us] are the distinct tokens of [xs] and [ys], [in_both] the number of those in both, so their
    Jaccard similarity is [in_both us xs ys / length us]. [hs] are the token hashes averaged over,
    each given by the values of the tokens [us]. *)
From stdpp Require Import base list.
From Coq Require Import NArith Lia.
From Verif Require Import Base SpecIndex MinHasher SpecMinHash MinHasherFacts SpecExpect ExpectFacts ExpectSig
  AffineFacts PropsAffine ExpectBias.
Local Open Scope nat_scope.

Lemma collide_most k a b vs v : k = MinHasher32 \/ k = MinHasher64V1 -> N.odd a = true -> NoDup vs ->
  (forall v, v ∈ vs <-> (v < 2 ^ hash_bits k)%N) -> v ∈ vs ->
  length (List.filter (fun w => (affine k a b v =? affine k a b w)%N) vs) <= match k with MinHasher64V1 => 9 | _ => 3 end.
Proof.
  intros Hk Ha Hn Hin Hv.
  assert (Hlt : (affine k a b v < modulus k)%N).
  { rewrite affine_of by done. apply N.mod_lt. by destruct k. }
  destruct (preimages (hash_bits k) (modulus k) a b) with (v := affine k a b v) as (l & Hnd & Hl & Hpre);
    [by destruct k|done|done|].
  rewrite count_share in Hl by done.
  transitivity (length l).
  - apply submseteq_length, NoDup_submseteq.
    + apply NoDup_ListNoDup, List.NoDup_filter. by apply NoDup_ListNoDup.
    + intros w Hw. apply elem_of_list_In, filter_In in Hw as [Hw1 Hw2]. apply elem_of_list_In in Hw1.
      apply N.eqb_eq in Hw2. apply Hpre. split; [by apply Hin|]. by rewrite Hw2, affine_of.
  - rewrite Hl. unfold fair_share. destruct k; destruct (_ <? _)%N; lia.
Qed.

Section C66.
Context {U : Type} `{EqDecision U}.
Context (k : hasher_kind) (draws : N -> nat -> nat -> N) (n : nat) (seed : N).
Context (us xs ys : list U) (Hus : union_of us xs ys).
Notation sig l zs := (create_signature k (given us l) (new_with_hasher_and_seed draws n seed) zs).
(** The hash of position [i]. *)
Notation f i := (affine k (draws seed n i) (draws seed n (n + i))).
(** The token hashes for which the signatures agree at position [i]. *)
Notation agreeing i hs := (filter (fun l => (sig l xs ≫= (.!! i)) = (sig l ys ≫= (.!! i))) hs).

Section Family.
Context (hs : list (list N)) (Hhs : impartial (length us) hs).

(** The signatures agree at least as often as the Jaccard similarity says ... *)
Theorem C66_at_least (i : nat) : i < n ->
  in_both us xs ys * length hs <= length us * length (agreeing i hs).
Proof. exact (same_lower k draws n seed us xs ys hs Hus Hhs i). Qed.

(** ... more often only when the least hash is taken twice ... *)
Theorem C66_at_most (i : nat) : k = MinHasher32 \/ k = MinHasher64V1 -> xs <> [] -> ys <> [] -> i < n ->
  length us * length (agreeing i hs) <=
  in_both us xs ys * length hs + length us * length (filter (tied (f i)) hs).
Proof. exact (same_upper k draws n seed us xs ys hs Hus Hhs i). Qed.

(** ... and exactly as often without collisions. *)
Theorem C66_exact (i : nat) : k = MinHasher32 \/ k = MinHasher64V1 -> xs <> [] -> ys <> [] -> i < n ->
  (forall l, l ∈ hs -> NoDup (f i <$> l)) ->
  length us * length (agreeing i hs) = in_both us xs ys * length hs.
Proof. exact (same_exact k draws n seed us xs ys hs Hus Hhs i). Qed.

(** Hence the mean number of agreeing positions is at least [n] times the Jaccard similarity. *)
Theorem C66_mean (count : list N -> nat) :
  (forall l sx sy, l ∈ hs -> sig l xs = Some sx -> sig l ys = Some sy -> count l = agreements sx sy) ->
  n * (in_both us xs ys * length hs) <= length us * sum_list (count <$> hs).
Proof. exact (same_mean k draws n seed us xs ys hs Hus Hhs count). Qed.
End Family.

(** With token hashes drawn independently from all values, an odd multiplier and [m] tokens the
    excess is at most [m(m-1)/2] times 9/2^64 (3/2^32 for 32 bits). *)
Theorem C66_bias (i : nat) (vs : list N) :
  k = MinHasher32 \/ k = MinHasher64V1 -> xs <> [] -> ys <> [] -> i < n ->
  N.odd (draws seed n i) = true ->
  NoDup vs -> (forall v, v ∈ vs <-> (v < 2 ^ hash_bits k)%N) ->
  let m := length us in let hs := assignments vs m in
  let c := match k with MinHasher64V1 => 9 | _ => 3 end in
  N.of_nat (length vs) = (2 ^ hash_bits k)%N /\ length hs = length vs ^ m /\
  in_both us xs ys * length hs <= m * length (agreeing i hs) /\
  2 * length vs * (m * length (agreeing i hs)) <=
    (2 * length vs * in_both us xs ys + m * (m * (m - 1) * c)) * length hs.
Proof.
  intros Hk Hx Hy Hi Ha Hn Hin m hs c.
  split; [by apply values_below|]. split; [apply assignments_length|].
  assert (Himp : impartial m hs) by (by apply assignments_impartial).
  split; [by apply C66_at_least|].
  pose proof (C66_at_most hs Himp i Hk Hx Hy Hi) as Hu.
  assert (Ht : 2 * length vs * length (filter (tied (f i)) hs) <= m * (m - 1) * c * length hs).
  { unfold hs. rewrite assignments_length. apply tied_le; [done|].
    intros v Hv. exact (collide_most k (draws seed n i) (draws seed n (n + i)) vs v Hk Ha Hn Hin Hv). }
  fold m in Hu. nia.
Qed.
End C66.

(** Even with all token hashes and disjoint documents some agree, so the mean is not the Jaccard
    similarity. *)
Theorem C66_unbiased_refuted (k : hasher_kind) (draws : N -> nat -> nat -> N) (n i : nat) (seed : N) : i < n ->
  exists (us xs ys : list N) (vs : list N),
    union_of us xs ys /\ in_both us xs ys = 0 /\
    NoDup vs /\ (forall v, v ∈ vs <-> (v < 2 ^ hash_bits k)%N) /\
    let sig l zs := create_signature k (given us l) (new_with_hasher_and_seed draws n seed) zs in
    0 < length (filter (fun l => (sig l xs ≫= (.!! i)) = (sig l ys ≫= (.!! i))) (assignments vs (length us))).
Proof.
  intros Hi. destruct (values_exist (2 ^ hash_bits k)) as (vs & Hn & Hin).
  exists [1;2]%N, [1]%N, [2]%N, vs.
  split. { split; [apply (bool_decide_unpack _); vm_compute; exact I|]. intros u. set_solver. }
  split; [done|]. split; [done|]. split; [done|]. intros sig.
  enough (Hl : [0;0]%N ∈ filter (fun l => (sig l [1%N] ≫= (.!! i)) = (sig l [2%N] ≫= (.!! i))) (assignments vs 2)).
  { cbn [length] in *. destruct (filter _ _); [by apply elem_of_nil in Hl|cbn; lia]. }
  apply elem_of_list_filter. split.
  - unfold sig. by destruct k.
  - apply assignments_elem. split; [done|]. intros v Hv. apply Hin.
    assert (v = 0%N) as -> by set_solver. by destruct k.
Qed.

(** Three tokens, one of them shared; the six ways to give them three hashes, and the eight ways
    to give each of them one of two. *)
Definition c66_draws (seed : N) (n j : nat) : N := seed + 1000003 * N.of_nat j.
Example C66_example :
  let us := [1;2;3]%N in let xs := [1;2;2]%N in let ys := [3;2]%N in
  let agreeing i hs := filter (fun l =>
    let sig zs := create_signature MinHasher64V1 (given us l) (new_with_hasher_and_seed c66_draws 3 4) zs in
    (sig xs ≫= (.!! i)) = (sig ys ≫= (.!! i))) hs in
  let hs := permutations [10 ^ 18; 7 * 10 ^ 18; 3]%N in
  union_of us xs ys /\ in_both us xs ys = 1 /\
  length hs = 6 /\ (length ∘ (fun i => agreeing i hs) <$> [0;1;2]) = [2;2;2] /\
  (length ∘ (fun i => agreeing i (assignments [5;7]%N 3)) <$> [0;1;2]) = [6;6;6] /\
  length (filter (tied (affine MinHasher64V1 (c66_draws 4 3 0) (c66_draws 4 3 3))) (assignments [5;7]%N 3)) = 5.
Proof.
  intros us xs ys agreeing hs.
  split. { split; [apply (bool_decide_unpack _); vm_compute; exact I|]. intros u. set_solver. }
  vm_compute. split_and!; reflexivity.
Qed.
Print Assumptions C66_at_least.
Print Assumptions C66_at_most.
Print Assumptions C66_exact.
Print Assumptions C66_mean.
Print Assumptions C66_bias.
Print Assumptions C66_unbiased_refuted.
