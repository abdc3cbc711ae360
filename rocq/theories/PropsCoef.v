(** Properties C69 and C70: signatures over all choices of the coefficients.

    [F] are the pairs of coefficients a position can get (1..P and 0..P in the code), [tuples F n]
    all ways to draw them for [n] positions; [drawn cs] is the hasher with coefficients [cs]. [a]
    is the number of pairs under which the two documents have the same one-hash signature. *)
From stdpp Require Import base list gmap.
From Coq Require Import NArith Lia.
From Verif Require Import Base Float Container MinHashIndex MinHasher SpecIndex ExampleIndex SpecTuples ExpectFacts ExpectSig SimExpect
  TupleFacts CoefFacts CoefIndex.
Local Open Scope nat_scope.

Lemma filter_test {A} (P : A -> Prop) `{!forall x, Decision (P x)} (f : A -> bool) (l : list A) :
  (forall x, f x = true <-> P x) -> List.filter f l = filter P l.
Proof.
  intros Hf. rewrite filter_bool. apply List.filter_ext. intros x. apply eq_true_iff_eq. by rewrite Hf, bool_decide_eq_true.
Qed.

Section C69.
Context {U : Type} (hash : U -> N) (kind : hasher_kind) (F : list (N * N)) (n : nat) (xs ys : list U).
Notation one ab items := (create_signature kind hash (drawn [ab]) items).
Notation a := (length (filter (fun ab => one ab xs = one ab ys) F)).
(** The number of agreeing positions under the coefficients [cs]. *)
Context (agree : list (N * N) -> nat).
Context (Hagree : forall cs sx sy, cs ∈ tuples F n -> create_signature kind hash (drawn cs) xs = Some sx ->
  create_signature kind hash (drawn cs) ys = Some sy -> agree cs = agreements sx sy).

Lemma same_filter (l : list (N * N)) :
  length (filter (fun ab => one ab xs = one ab ys) l) = length (List.filter (alike hash kind xs ys) l).
Proof. f_equal. symmetry. apply filter_test. intros ab. apply bool_decide_eq_true. Qed.
Lemma agree_ones cs : cs ∈ tuples F n -> agree cs = length (List.filter (alike hash kind xs ys) cs).
Proof.
  intros Hcs. destruct (positions hash kind xs) as [v Hv], (positions hash kind ys) as [w Hw].
  rewrite (Hagree cs _ _ Hcs (Hv cs) (Hw cs)). by apply (agreements_alike hash kind xs ys cs).
Qed.

(** The number of agreeing positions is binomially distributed. *)
Theorem C69_binomial (j : nat) : length (filter (fun cs => agree cs = j) (tuples F n)) =
  binom n j * (a ^ j * (length F - a) ^ (n - j)).
Proof.
  rewrite same_filter, <- binomial. rewrite <- (filter_test _ (fun cs => agree cs =? j)) by (intros; apply Nat.eqb_eq).
  rewrite length_filter. apply total_ext. intros cs Hcs. by rewrite agree_ones.
Qed.

(** Its mean is [n * a / length F]. *)
Theorem C69_mean : length F * sum_list (agree <$> tuples F n) = n * (a * length F ^ n).
Proof.
  rewrite same_filter, <- mean_ones, sum_total. f_equal. apply total_ext. intros cs Hcs. by apply agree_ones.
Qed.

(** Its variance is [n * p * (1 - p)] with [p = a / length F]. *)
Theorem C69_variance : sum_list ((fun cs => apart (length F * agree cs) (n * a) * apart (length F * agree cs) (n * a)) <$> tuples F n) =
  n * (a * (length F - a)) * length F ^ n.
Proof.
  rewrite same_filter, sum_total, <- square_sum. apply total_ext. intros cs Hcs. by rewrite agree_ones.
Qed.

(** Hence few choices of coefficients give an estimate far from [a / length F]. *)
Theorem C69_deviation (t : nat) :
  t * t * length (filter (fun cs => t <= apart (length F * agree cs) (n * a)) (tuples F n)) <= n * (a * (length F - a)) * length F ^ n.
Proof.
  rewrite same_filter. etransitivity; [|apply chebyshev].
  rewrite <- (filter_test _ (fun cs => t <=? apart (length F * agree cs) (n * length (List.filter (alike hash kind xs ys) F)))) by (intros; apply Nat.leb_le).
  rewrite length_filter. apply Nat.mul_le_mono_l, Nat.eq_le_incl, total_ext. intros cs Hcs. by rewrite agree_ones.
Qed.

(** The tails decrease exponentially: for any weights [u], [v]. *)
Theorem C69_tail_above (u v k : nat) : v <= u ->
  u ^ k * v ^ (n - k) * length (filter (fun cs => k <= agree cs) (tuples F n)) <= (u * a + v * (length F - a)) ^ n.
Proof.
  intros Huv. rewrite same_filter. etransitivity; [|apply (tail_above F (alike hash kind xs ys) u v n k Huv)].
  rewrite <- (filter_test _ (fun cs => k <=? agree cs)) by (intros; apply Nat.leb_le).
  rewrite length_filter. apply Nat.mul_le_mono_l, Nat.eq_le_incl, total_ext. intros cs Hcs. by rewrite agree_ones.
Qed.
Theorem C69_tail_below (u v k : nat) : u <= v -> k <= n ->
  u ^ k * v ^ (n - k) * length (filter (fun cs => agree cs <= k) (tuples F n)) <= (u * a + v * (length F - a)) ^ n.
Proof.
  intros Huv Hk. rewrite same_filter. etransitivity; [|apply (tail_below F (alike hash kind xs ys) u v n k Huv Hk)].
  rewrite <- (filter_test _ (fun cs => agree cs <=? k)) by (intros; apply Nat.leb_le).
  rewrite length_filter. apply Nat.mul_le_mono_l, Nat.eq_le_incl, total_ext. intros cs Hcs. by rewrite agree_ones.
Qed.
End C69.

(** Four pairs of coefficients, two of them for which the signatures agree; three positions. *)
Definition c69_coefs : list (N * N) := [(1,0);(3,7);(1000003,11);(5,5)]%N.
Definition c69_hash (u : N) : N := (u * 2654435761)%N.
Definition c69_xs : list N := [1;2;3]%N.
Definition c69_ys : list N := [2;3;4]%N.
Definition c69_agree (cs : list (N * N)) : nat :=
  match create_signature MinHasher32 c69_hash (drawn cs) c69_xs, create_signature MinHasher32 c69_hash (drawn cs) c69_ys with
  | Some sx, Some sy => agreements sx sy | _, _ => 0 end.
Example C69_example :
  length (filter (fun ab => create_signature MinHasher32 c69_hash (drawn [ab]) c69_xs = create_signature MinHasher32 c69_hash (drawn [ab]) c69_ys) c69_coefs) = 2 /\
  length (tuples c69_coefs 3) = 64 /\
  map (fun j => length (filter (fun cs => c69_agree cs = j) (tuples c69_coefs 3))) [0;1;2;3;4] = [8;24;24;8;0] /\
  sum_list (c69_agree <$> tuples c69_coefs 3) = 96 /\
  (* 8 choices agree everywhere: at most (3 * 2 + 1 * 2) ^ 3 / 3 ^ 3 *)
  3 ^ 3 * 1 ^ 0 * 8 <= (3 * 2 + 1 * (4 - 2)) ^ 3.
Proof. split_and!; [vm_compute; reflexivity..|cbn; lia]. Qed.
Print Assumptions C69_binomial.
Print Assumptions C69_mean.
Print Assumptions C69_variance.
Print Assumptions C69_deviation.
Print Assumptions C69_tail_above.
Print Assumptions C69_tail_below.

Section C70.
Context {U : Type} (hash : U -> N) (kind : hasher_kind) (F : list (N * N)) (xs ys : list U).
Context {P : Type} `{Countable P} (ck : container_kind) (bh : list N -> N) (nb bw : nat) (th : f64).
(** For each choice of coefficients an index, after any history that left document [ys] stored
    under [id]. *)
Context (ops : list (N * N) -> list (op P N)) (id : P).
Notation n := (nb * bw).
Context (Hsized : forall cs, cs ∈ tuples F n -> well_sized n (spec_map n (ops cs))).
Context (Hstored : forall cs, cs ∈ tuples F n -> spec_map n (ops cs) !! id = create_signature kind hash (drawn cs) ys).
(** Whether the query for [xs] finds it. *)
Context (found : list (N * N) -> bool).
Context (Hfound : forall cs q S, cs ∈ tuples F n -> create_signature kind hash (drawn cs) xs = Some q ->
  query (container ck P) bh (after ck bh nb bw th (ops cs)) q = Some S -> found cs = bool_decide (id ∈ S)).
Notation one ab items := (create_signature kind hash (drawn [ab]) items).
Notation a := (length (filter (fun ab => one ab xs = one ab ys) F)).

(** With a threshold up to [1 / nb] the share of choices under which the document is found is at
    least [1 - (1 - p ^ bw) ^ nb] with [p = a / length F]. *)
Theorem C70_at_least : f64_valid th = true -> 0 < bw -> (N.of_nat n <= 2 ^ 53)%N ->
  f64_ge (f64_div (f64_of_N 1) (f64_of_N (N.of_nat nb))) th = true ->
  length F ^ n <= length (filter (fun cs => found cs = true) (tuples F n)) + (length F ^ bw - a ^ bw) ^ nb.
Proof.
  intros. rewrite same_filter, <- (filter_test _ found) by done.
  by apply (curve_recall hash kind F xs ys ck bh nb bw th ops id found Hsized Hstored Hfound).
Qed.

(** After clean histories and without collisions of band hashes it is at most that, for any
    threshold. *)
Theorem C70_at_most : (forall cs, cs ∈ tuples F n -> clean n (ops cs)) -> collision_free bw bh ->
  length (filter (fun cs => found cs = true) (tuples F n)) + (length F ^ bw - a ^ bw) ^ nb <= length F ^ n.
Proof.
  intros. rewrite same_filter, <- (filter_test _ found) by done.
  by apply (curve_upper hash kind F xs ys ck bh nb bw th ops id found Hsized Hstored Hfound).
Qed.

Theorem C70_exact : f64_valid th = true -> 0 < bw -> (N.of_nat n <= 2 ^ 53)%N ->
  f64_ge (f64_div (f64_of_N 1) (f64_of_N (N.of_nat nb))) th = true ->
  (forall cs, cs ∈ tuples F n -> clean n (ops cs)) -> collision_free bw bh ->
  length (filter (fun cs => found cs = true) (tuples F n)) + (length F ^ bw - a ^ bw) ^ nb = length F ^ n.
Proof. intros. apply Nat.le_antisymm; [by apply C70_at_most|by apply C70_at_least]. Qed.
End C70.

(** Two bands of two positions, with the coefficients of C69: of 256 choices 256 - (16 - 4) ^ 2. *)
Definition c70_ops (cs : list (N * N)) : list (op N N) :=
  match create_signature MinHasher32 c69_hash (drawn cs) c69_ys with
  | Some s => [Insert 7 s; Insert 8 [1;2;3;4]; Remove 8]%N | None => [] end.
Definition c70_found (th : f64) (cs : list (N * N)) : bool :=
  match create_signature MinHasher32 c69_hash (drawn cs) c69_xs with
  | Some q => match query (container KVec N) bh_injective (after KVec bh_injective 2 2 th (c70_ops cs)) q with
              | Some ids => bool_decide (7%N ∈ ids) | None => false end
  | None => false end.
Example C70_example :
  f64_ge (f64_div (f64_of_N 1) (f64_of_N 2)) ExampleIndex.half = true /\
  Forall (fun cs => clean 4 (c70_ops cs) /\ spec_map 4 (c70_ops cs) !! 7%N = create_signature MinHasher32 c69_hash (drawn cs) c69_ys)
    (tuples c69_coefs 4) /\
  length (filter (fun cs => c70_found ExampleIndex.half cs = true) (tuples c69_coefs 4)) = 112 /\ 112 + (4 ^ 2 - 2 ^ 2) ^ 2 = 4 ^ 4.
Proof.
  split; [vm_compute; reflexivity|]. split; [apply (bool_decide_unpack _); vm_compute; exact I|].
  split; vm_compute; reflexivity.
Qed.
Print Assumptions C70_at_least.
Print Assumptions C70_at_most.
Print Assumptions C70_exact.

(** Above [1 / nb] the threshold cuts the curve off: with threshold 1 the document is found under
    16 of 256 choices instead of 112. *)
Theorem C70_threshold_refuted :
  exists (hash : N -> N) (kind : hasher_kind) (F : list (N * N)) (xs ys : list N) (nb bw : nat) (th : f64)
    (ops : list (N * N) -> list (op N N)) (id : N),
  let n := nb * bw in
  (forall cs, cs ∈ tuples F n -> clean n (ops cs) /\
    spec_map n (ops cs) !! id = create_signature kind hash (drawn cs) ys) /\
  exists found : list (N * N) -> bool,
  (forall cs, cs ∈ tuples F n -> exists q S, create_signature kind hash (drawn cs) xs = Some q /\
    query (container KVec N) bh_injective (after KVec bh_injective nb bw th (ops cs)) q = Some S /\
    found cs = bool_decide (id ∈ S)) /\
  let a := length (filter (fun ab => create_signature kind hash (drawn [ab]) xs = create_signature kind hash (drawn [ab]) ys) F) in
  length (filter (fun cs => found cs = true) (tuples F n)) + (length F ^ bw - a ^ bw) ^ nb < length F ^ n.
Proof.
  exists c69_hash, MinHasher32, c69_coefs, c69_xs, c69_ys, 2, 2, (f64_of_N 1), c70_ops, 7%N. cbn zeta.
  split. { intros cs. apply (proj1 (Forall_forall (fun cs => clean 4 (c70_ops cs) /\
    spec_map 4 (c70_ops cs) !! 7%N = create_signature MinHasher32 c69_hash (drawn cs) c69_ys) (tuples c69_coefs 4))).
    apply (bool_decide_unpack _). vm_compute. exact I. }
  exists (c70_found (f64_of_N 1)). split; [|vm_compute; lia].
  intros cs Hcs. assert (Hq : Forall (fun cs =>
    is_Some (q ← create_signature MinHasher32 c69_hash (drawn cs) c69_xs;
      query (container KVec N) bh_injective (after KVec bh_injective 2 2 (f64_of_N 1) (c70_ops cs)) q)) (tuples c69_coefs 4)).
  { apply (bool_decide_unpack _). vm_compute. exact I. }
  destruct (proj1 (Forall_forall _ _) Hq cs Hcs) as [S HS]. apply bind_Some in HS as (q & Hc & HS).
  exists q, S. split; [done|]. split; [done|]. unfold c70_found. by rewrite Hc, HS.
Qed.
Print Assumptions C70_threshold_refuted.
