(** Property C67: the expected Hamming distance of simhash signatures.

    [us] are tokens including those of the documents [xs] and [ys]; the average is over all token
    hashes, each given by the values of [us]; [dist] is the distance of the two signatures. *)
From stdpp Require Import base list.
From Coq Require Import NArith ZArith Lia.
From Verif Require Import Base SimHash SpecSimHash SimHashFacts SpecExpect ExpectFacts ExpectSig ExpectBias SimExpect.
Local Open Scope nat_scope.

Section C67.
Context {U : Type} `{EqDecision U} (W L : nat) (us xs ys : list U) (vs : list N).
Context (HL : L <= W) (Hus : NoDup us).
Context (Hnd : NoDup vs) (Hvs : forall v, v ∈ vs <-> (v < 2 ^ N.of_nat W)%N).
Context (dist : list N -> nat).
Notation hs := (assignments vs (length us)).
Context (Hdist : forall l rx ry, l ∈ hs -> create_signature W L (given us l) xs = Some rx ->
  create_signature W L (given us l) ys = Some ry -> dist l = hamming W rx ry).
Context (Hx : forall u, u ∈ xs -> u ∈ us) (Hy : forall u, u ∈ ys -> u ∈ us).

(** The mean distance of any two documents is at most half the bits. *)
Theorem C67_at_most_half : 2 * sum_list (dist <$> hs) <= L * length hs.
Proof. exact (mean_distance W L us xs ys vs HL Hnd Hvs dist Hdist Hx Hy). Qed.

(** It is half the bits if they have no common token and one has an odd number of tokens. *)
Theorem C67_unrelated : (forall u, u ∈ xs -> u ∉ ys) -> Nat.Odd (length xs) ->
  2 * sum_list (dist <$> hs) = L * length hs.
Proof. exact (unrelated_distance W L us xs ys vs HL Hnd Hvs dist Hdist Hx Hy). Qed.
End C67.

(** Documents without common token are closer if both have an even number of tokens, since a tie
    gives a zero: 3/8 of the bits for two pairs. *)
Theorem C67_unrelated_refuted : exists (us xs ys : list N), 
  NoDup us /\ (forall u, u ∈ xs -> u ∈ us) /\ (forall u, u ∈ ys -> u ∈ us) /\ (forall u, u ∈ xs -> u ∉ ys) /\
  forall (vs : list N) (dist : list N -> nat), NoDup vs -> (forall v, v ∈ vs <-> (v < 2 ^ 64)%N) ->
  (forall l rx ry, l ∈ assignments vs (length us) -> create_signature 64 64 (given us l) xs = Some rx ->
    create_signature 64 64 (given us l) ys = Some ry -> dist l = hamming 64 rx ry) ->
  8 * sum_list (dist <$> assignments vs (length us)) = 3 * (64 * length (assignments vs (length us))).
Proof.
  exists [1;2;3;4]%N, [1;2]%N, [3;4]%N.
  split; [apply (bool_decide_unpack _); vm_compute; exact I|].
  split; [set_solver|]. split; [set_solver|]. split; [set_solver|].
  intros vs dist Hnd Hvs Hdist.
  exact (pairs_distance 64 vs Hnd Hvs dist Hdist).
Qed.

(** One bit: all sixteen token hashes of four tokens. *)
Example C67_example :
  let us := [1;2;3;4]%N in
  let dist xs ys l := match create_signature 1 1 (given us l) xs, create_signature 1 1 (given us l) ys with
                      | Some rx, Some ry => hamming 1 rx ry | _, _ => 0 end in
  let sum xs ys := sum_list (dist xs ys <$> assignments [0;1]%N (length us)) in
  length (assignments [0;1]%N (length us)) = 16 /\
  sum [1]%N [2;3]%N = 8 /\ sum [1;2;1]%N [4;3]%N = 8 /\ sum [1;2;3]%N [3;2;4]%N = 4 /\ sum [1;2]%N [3;4]%N = 6.
Proof. vm_compute. split_and!; reflexivity. Qed.
Print Assumptions C67_at_most_half.
Print Assumptions C67_unrelated.
Print Assumptions C67_unrelated_refuted.
