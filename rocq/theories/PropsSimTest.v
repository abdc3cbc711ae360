(** Property theorem C81: the random unit test of the simhash index, for all numbers it may draw. *)
From stdpp Require Import base list gmap.
From Coq Require Import NArith Lia.
From Verif Require Import Base SimHashBits SimHash SimHashIndex SpecIndex SpecSimHash SpecTuples TupleFacts SimDist SpecSimTest SimTestFacts.
Local Open Scope nat_scope.

Local Typeclasses Opaque index_test.
Local Opaque signature index_test.

(** The comparison with the linear search never fails. The test passes if a copy is less than 6
    bits away from the document, and panics at [unwrap] if none is. *)
Theorem C81_simhash_index (order : gset N -> list N) (samples : list (nat * N)) :
  is_order order -> samples <> [] -> Forall sample_ok samples ->
  (index_test order samples = Ok true <-> exists s, s ∈ samples /\ sample_distance s < 6) /\
  (index_test order samples = Panic <-> forall s, s ∈ samples -> 6 <= sample_distance s) /\
  index_test order samples <> Ok false.
Proof. intros Ho Hne Hok. apply (outcome_spec sample_distance), index_test_spec; [exact Ho|exact Hne|exact Hok]. Qed.

(** One copy 12 bits away, one at distance 3. *)
Example C81_example :
  Forall sample_ok [(17, 88%N); (0, 8%N)] /\
  (sample_distance (17, 88%N), sample_distance (0, 8%N)) = (12, 3) /\
  index_test elements [(17, 88%N); (0, 8%N)] = Ok true /\
  index_test elements [(17, 88%N); (17, 88%N)] = Panic.
Proof. split; [repeat constructor; done|]. vm_compute. split_and!; reflexivity. Qed.
Print Assumptions C81_simhash_index.

(** Of the [19980 ^ n] outcomes of drawing [n] copies, the test panics for [6917 ^ n]; with the
    100 copies of the test these are fewer than one in [10 ^ 46]. *)
Theorem C81_simhash_index_count (order : gset N -> list N) (n : nat) : is_order order -> 0 < n ->
  (forall l, l ∈ tuples all_samples n <-> length l = n /\ Forall sample_ok l) /\
  N.of_nat (length (tuples all_samples n)) = (19980 ^ N.of_nat n)%N /\
  N.of_nat (length (filter (fun l => index_test order l = Panic) (tuples all_samples n))) = (6917 ^ N.of_nat n)%N /\
  (10 ^ 46 * 6917 ^ 100 < 19980 ^ 100)%N.
Proof.
  intros Ho Hn. split; [|split; [|split]].
  - intros l. split.
    + intros [Hl HF]%tuples_elem. split; [done|]. eapply Forall_impl; [exact HF|]. intros s. apply samples_elem.
    + intros [Hl HF]. apply tuples_elem_2; [done|]. eapply Forall_impl; [exact HF|]. intros s. apply samples_elem.
  - rewrite tuples_count, samples_count. apply of_nat_pow.
  - destruct n as [|n]; [lia|]. rewrite (index_test_count order n Ho). apply of_nat_pow.
  - vm_compute. reflexivity.
Qed.
Print Assumptions C81_simhash_index_count.
