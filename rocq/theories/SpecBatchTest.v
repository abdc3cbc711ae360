(** The random unit test minhash_index.rs:1009-1083 ([test_lsh_index_batch_construction2]) as a
    function of the numbers it draws (C83). *)
From stdpp Require Import base list gmap.
From Coq Require Import NArith.
From Verif Require Import Base Float Container MinHashIndex MinHasher Fnv PyHash Params Rng SpecIndex.
Local Open Scope nat_scope.

(** [u64::hash] through [FnvHasher]: the default [write_u64] writes the eight bytes. *)
Definition u64_hash (x : N) : N := fnv_write fnv_default (le_bytes 8 x).

(** What is drawn for one of the three groups: the vector, and for each of its 99 copies the
    indices and the new values (minhash_index.rs:1019-1030). *)
Record group := Group { base : list N; copies : list (list (nat * N)) }.
Definition change_values (v : list N) (changes : list (nat * N)) : list N :=
  foldl (fun c iv => <[iv.1 := iv.2]> c) v changes.
Definition vectors (g : group) : list (list N) := base g :: (change_values (base g) <$> copies g).

(** The numbers are in the ranges of the test, [n] changes in each copy. *)
Definition value_ok (x : N) : Prop := (1 <= x < 100000)%N.
Definition group_ok (n : nat) (g : group) : Prop :=
  length (base g) = 1000 /\ Forall value_ok (base g) /\ length (copies g) = 99 /\
  Forall (fun c => length c = n /\ Forall (fun iv : nat * N => iv.1 < 1000 /\ value_ok iv.2) c) (copies g).

(** [assert!]: [Ok false] stands for a failed assertion, [Panic] for any other panic. *)
Definition assert (b : bool) (rest : res bool) : res bool := if b then rest else Ok false.

Section Test.
Context (k : container_kind) (bh : list N -> N) (sched1 sched2 : list nat).
Context (order : gset N -> list N) (sort : list (N * f64) -> list (N * f64)).

(** minhash_index.rs:1062-1063 and its like. *)
Definition assert_group (m : index (carrier (container k N)) N N) (q : list N) (from : nat) (rest : res bool) : res bool :=
  ret ← query (container k N) bh m q;
  assert (size ret =? 100)
    (assert (length (filter (fun i => i ∈ ret) (N.of_nat <$> seq from 100)) =? 100) rest).

(** minhash_index.rs:1057-1081, from the signatures of the vectors; [q1], [q2], [q3] are the
    signatures made of the three vectors for the queries. *)
Definition batch_checks (b r : nat) (th : f64) (sigs : list (list N)) (q1 q2 q3 : list N) : res bool :=
  let '(m, o) := step (container k N) bh (new_index (container k N) b r th)
                   (ParBulkInsert sched1 (N.of_nat <$> seq 0 300) sigs) in
  match o with
  | OPanic => Panic
  | _ =>
      assert (index_size (container k N) m =? 300)
        (assert_group m q1 0
           (top ← query_top_k (container k N) bh order sort m q1 10;
            assert (length top =? 10)
              (assert_group m q2 100
                 (assert_group m q3 200
                    (let '(m, o) := step (container k N) bh m (BulkRemove sched2 ((fun i => N.of_nat (2 * i)) <$> seq 0 50)) in
                     match o with
                     | OPanic => Panic
                     | _ => ret ← query (container k N) bh m q1; assert (size ret =? 50) (Ok true)
                     end)))))
  end.

Definition batch_test (powf : f64 -> f64 -> f64) (fuel : nat) (g1 g2 g3 : group) : res bool :=
  let half := f64_div (f64_of_N 1) (f64_of_N 2) in
  '(b, r) ← calculate_minhash_params powf half 128;
  h ← std_hasher_new fuel MinHasher64V1 (b * r);
  let sign := create_signature MinHasher64V1 u64_hash h in
  sigs ← mapM sign (vectors g1 ++ vectors g2 ++ vectors g3);
  q1 ← sign (base g1); q2 ← sign (base g2); q3 ← sign (base g3);
  batch_checks b r half sigs q1 q2 q3.
End Test.

(** The coefficients [MinHasher64V1::new(126)] draws, and the signature of a vector. *)
Definition test_hasher : hasher := default (Hasher [] [] 0) (std_hasher_new 9 MinHasher64V1 126).
Definition signature (v : list N) : list N :=
  default [] (create_signature MinHasher64V1 u64_hash test_hasher v).

(** Two vectors are near: at least half of the 126 hashes agree, and one of the 42 bands of three
    hashes has the same band hash. *)
Definition near (bh : list N -> N) (v w : list N) : Prop :=
  63 <= agreements (signature v) (signature w) /\
  exists i, i < 42 /\ bh (nth_band 3 i (signature v)) = bh (nth_band 3 i (signature w)).
