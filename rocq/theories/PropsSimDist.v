(** Property C76: the distribution of the Hamming distance of simhash signatures, and how likely the
    simhash index finds a document.

    [us] are tokens including those of the documents [xs] and [ys]; the counts are over all token
    hashes, each given by the values of [us]; [dist] is the distance of the two signatures. [q] of
    the [T] one-bit token hashes give the documents different one-bit signatures. *)
From stdpp Require Import base list gmap.
From Coq Require Import NArith ZArith Arith Lia.
From Verif Require Import Base SimHash SimHashIndex SpecSimHash SimHashFacts SpecExpect ExpectFacts ExpectSig ExpectBias SimExpect
  SpecTuples TupleFacts SimDist PropsSimHash PropsCoef.
Local Open Scope nat_scope.

Section C76.
Context {U : Type} `{EqDecision U} (W L : nat) (us xs ys : list U) (vs : list N).
Context (HL : L <= W) (Hnd : NoDup vs) (Hvs : forall v, v ∈ vs <-> (v < 2 ^ N.of_nat W)%N).
Context (dist : list N -> nat).
Notation hs := (assignments vs (length us)).
Context (Hdist : forall l rx ry, l ∈ hs -> create_signature W L (given us l) xs = Some rx ->
  create_signature W L (given us l) ys = Some ry -> dist l = hamming W rx ry).
Notation one l items := (create_signature 1 1 (given us l) items).
Notation T := (2 ^ length us).
Notation q := (length (filter (fun l => one l xs ≠ one l ys) (assignments [0;1]%N (length us)))).

Lemma hashes_length : length hs = T ^ (W - L) * T ^ L.
Proof.
  rewrite assignments_length, (values_length W vs Hnd Hvs), <- !Nat.pow_mul_r, <- Nat.pow_add_r. f_equal. nia.
Qed.
Lemma dist_filter (P : nat -> bool) (Q : list N -> Prop) `{!forall l, Decision (Q l)} : (forall l, P (dist l) = true <-> Q l) ->
  length (filter Q hs) =
  T ^ (W - L) * total (fun t => if P (length (List.filter (differ us xs ys) t)) then 1 else 0) (tuples (bools (length us)) L).
Proof using HL Hnd Hvs Hdist.
  intros HP. rewrite <- (filter_test _ (fun l => P (dist l))) by (intros l; apply HP). rewrite length_filter.
  rewrite (dist_total W L us xs ys vs HL Hnd Hvs dist Hdist (fun n => if P n then 1 else 0)). by rewrite Nat.pow_mul_r.
Qed.

(** The number of differing bits is binomially distributed. *)
Theorem C76_binomial (j : nat) : length (filter (fun l => dist l = j) hs) =
  T ^ (W - L) * (binom L j * (q ^ j * (T - q) ^ (L - j))).
Proof using HL Hnd Hvs Hdist.
  rewrite (dist_filter (fun n => n =? j)) by (intros; apply Nat.eqb_eq). by rewrite binomial, bools_length, one_bit_count.
Qed.

(** Its mean is [L * q / T] ... *)
Theorem C76_mean : T * sum_list (dist <$> hs) = L * q * length hs.
Proof using HL Hnd Hvs Hdist.
  rewrite sum_total. change (total dist hs) with (total (fun l => (fun n => n) (dist l)) hs).
  rewrite (dist_total W L us xs ys vs HL Hnd Hvs dist Hdist), one_bit_count, hashes_length.
  pose proof (mean_ones (bools (length us)) (differ us xs ys) L) as E. rewrite bools_length in E. rewrite <- Nat.pow_mul_r. nia.
Qed.

(** ... and its variance [L * p * (1 - p)] with [p = q / T]. *)
Theorem C76_variance : sum_list ((fun l => apart (T * dist l) (L * q) * apart (T * dist l) (L * q)) <$> hs) =
  L * (q * (T - q)) * length hs.
Proof using HL Hnd Hvs Hdist.
  rewrite sum_total, one_bit_count, hashes_length. set (a := length (List.filter _ (bools _))).
  rewrite (dist_total W L us xs ys vs HL Hnd Hvs dist Hdist (fun n => apart (T * n) (L * a) * apart (T * n) (L * a))).
  pose proof (square_sum (bools (length us)) (differ us xs ys) L) as E. rewrite bools_length in E. fold a in E.
  rewrite E, Nat.pow_mul_r. ring.
Qed.
Theorem C76_deviation (t : nat) :
  t * t * length (filter (fun l => t <= apart (T * dist l) (L * q)) hs) <= L * (q * (T - q)) * length hs.
Proof using HL Hnd Hvs Hdist.
  rewrite one_bit_count. set (a := length (List.filter _ (bools _))).
  rewrite (dist_filter (fun n => t <=? apart (T * n) (L * a))) by (intros; apply Nat.leb_le).
  pose proof (chebyshev (bools (length us)) (differ us xs ys) L t) as E. rewrite bools_length in E. fold a in E.
  rewrite hashes_length. apply (Nat.mul_le_mono_l _ _ (T ^ (W - L))) in E. lia.
Qed.

(** The tails decrease exponentially: for any weights [u], [v]. *)
Theorem C76_tail_above (u v k : nat) : v <= u ->
  u ^ k * v ^ (L - k) * length (filter (fun l => k <= dist l) hs) <= T ^ (W - L) * (u * q + v * (T - q)) ^ L.
Proof using HL Hnd Hvs Hdist.
  intros Huv. rewrite one_bit_count, (dist_filter (fun n => k <=? n)) by (intros; apply Nat.leb_le).
  pose proof (tail_above (bools (length us)) (differ us xs ys) u v L k Huv) as E. rewrite bools_length in E.
  apply (Nat.mul_le_mono_l _ _ (T ^ (W - L))) in E. lia.
Qed.
Theorem C76_tail_below (u v k : nat) : u <= v -> k <= L ->
  u ^ k * v ^ (L - k) * length (filter (fun l => dist l <= k) hs) <= T ^ (W - L) * (u * q + v * (T - q)) ^ L.
Proof using HL Hnd Hvs Hdist.
  intros Huv Hk. rewrite one_bit_count, (dist_filter (fun n => n <=? k)) by (intros; apply Nat.leb_le).
  pose proof (tail_below (bools (length us)) (differ us xs ys) u v L k Huv Hk) as E. rewrite bools_length in E.
  apply (Nat.mul_le_mono_l _ _ (T ^ (W - L))) in E. lia.
Qed.
End C76.

(** At most half of the one-bit token hashes tell two documents apart. *)
Theorem C76_half {U : Type} `{EqDecision U} (us xs ys : list U) :
  (forall u, u ∈ xs -> u ∈ us) -> (forall u, u ∈ ys -> u ∈ us) ->
  2 * length (filter (fun l => create_signature 1 1 (given us l) xs ≠ create_signature 1 1 (given us l) ys)
    (assignments [0;1]%N (length us))) <= 2 ^ length us.
Proof.
  intros Hx Hy. set (dist := fun l => match create_signature 1 1 (given us l) xs, create_signature 1 1 (given us l) ys with
    | Some rx, Some ry => hamming 1 rx ry | _, _ => 0 end).
  assert (Hdist : forall l rx ry, l ∈ assignments [0;1]%N (length us) -> create_signature 1 1 (given us l) xs = Some rx ->
    create_signature 1 1 (given us l) ys = Some ry -> dist l = hamming 1 rx ry).
  { intros l rx ry _ E1 E2. unfold dist. by rewrite E1, E2. }
  pose proof (C76_mean 1 1 us xs ys [0;1]%N ltac:(lia) one_bit_nodup one_bit_values dist Hdist) as E.
  pose proof (mean_distance 1 1 us xs ys [0;1]%N ltac:(lia) one_bit_nodup one_bit_values dist Hdist Hx Hy) as Hm.
  rewrite assignments_length in E, Hm. cbn [length] in E, Hm. set (q := length (filter _ _)) in *. set (s := sum_list _) in *.
  assert (0 < 2 ^ length us) by (apply Nat.neq_0_lt_0, Nat.pow_nonzero; lia). set (T := 2 ^ length us) in *. clearbody q s T.
  assert (s = q) by (apply (Nat.mul_cancel_l _ _ T); lia). lia.
Qed.

(** A document of [n] different tokens and the same with one token more: the mean distance is
    [L * binom n (n / 2) / 2 ^ (n + 1)], about [0.4 * L / sqrt n]. *)
Theorem C76_one_more {U : Type} `{EqDecision U} (W L : nat) (y : U) (zs : list U) (vs : list N) (dist : list N -> nat) :
  let n := length zs in let hs := assignments vs (n + 1) in
  L <= W -> NoDup (y :: zs) -> NoDup vs -> (forall v, v ∈ vs <-> (v < 2 ^ N.of_nat W)%N) ->
  (forall l rx ry, l ∈ hs -> create_signature W L (given (y :: zs) l) (y :: zs) = Some rx ->
    create_signature W L (given (y :: zs) l) zs = Some ry -> dist l = hamming W rx ry) ->
  2 ^ (n + 1) * sum_list (dist <$> hs) = L * binom n (n / 2) * length hs.
Proof.
  intros n hs HL Hz Hnd Hvs Hdist. subst hs. unfold n in *. rewrite (Nat.add_comm (length zs) 1) in *.
  pose proof (C76_mean W L (y :: zs) (y :: zs) zs vs HL Hnd Hvs dist Hdist) as E.
  rewrite one_bit_count, extra_count in E by done. exact E.
Qed.

Section C76_recall.
Context {U : Type} `{EqDecision U} (W nb d : nat) (us xs ys : list U) (vs : list N).
Context (HW : 1 < W) (Hd : d <= nb <= W) (Hnd : NoDup vs) (Hvs : forall v, v ∈ vs <-> (v < 2 ^ N.of_nat W)%N).
Notation hs := (assignments vs (length us)).
Notation sig l items := (create_signature W W (given us l) items).
(** For each token hash an index, after any history that left document [ys] stored under [id]. *)
Context {Id : Type} `{Countable Id} (ops : list N -> list (sop Id)) (id : Id).
Context (Hfit : forall l, l ∈ hs -> Forall (sop_fits W) (ops l)).
Context (Hstored : forall l, l ∈ hs -> sspec_map (ops l) !! id = sig l ys).
(** Whether the query for [xs] finds it. *)
Context (found : list N -> bool).
Context (Hfound : forall l s m S, l ∈ hs -> sig l xs = Some s -> safter W nb d (ops l) = Some m ->
  squery m s = Some S -> found l = bool_decide (id ∈ S)).
Notation one l items := (create_signature 1 1 (given us l) items).
Notation T := (2 ^ length us).
Notation q := (length (filter (fun l => one l xs ≠ one l ys) (assignments [0;1]%N (length us)))).

(** The number of token hashes under which the index finds the document is a sum of binomial terms. *)
Theorem C76_recall : length (filter (fun l => found l = true) hs) =
  sum_list ((fun j => binom W j * (q ^ j * (T - q) ^ (W - j))) <$> seq 0 d).
Proof using HW Hd Hnd Hvs Hfit Hstored Hfound.
  set (dist := fun l => match sig l xs, sig l ys with Some rx, Some ry => hamming W rx ry | _, _ => 0 end).
  assert (Hdist : forall l rx ry, l ∈ hs -> sig l xs = Some rx -> sig l ys = Some ry -> dist l = hamming W rx ry).
  { intros l rx ry _ E1 E2. unfold dist. by rewrite E1, E2. }
  assert (Hf : forall l, l ∈ hs -> found l = (dist l <? d)).
  { intros l Hl. destruct (create_signature_spec W W (given us l) xs ltac:(lia)) as (rx & Ex & Hx & _).
    destruct (create_signature_spec W W (given us l) ys ltac:(lia)) as (ry & Ey & _ & _).
    destruct (C28_query_exact W nb d (ops l) rx HW Hd (Hfit l Hl) Hx) as (m & S & Em & ES & _ & HS).
    rewrite (Hfound l rx m S Hl Ex Em ES), (Hdist l rx ry Hl Ex Ey). apply eq_true_iff_eq.
    rewrite bool_decide_eq_true, HS, Nat.ltb_lt, (Hstored l Hl), Ey. naive_solver. }
  rewrite <- (filter_test _ found) by done. rewrite length_filter, sum_total.
  rewrite (total_ext _ (fun l => total (fun j => if dist l =? j then 1 else 0) (seq 0 d))).
  2: { intros l Hl. rewrite (Hf l Hl). set (n := dist l). clear. induction d as [|d' IH]; [done|].
       rewrite seq_S, total_app, <- IH. cbn [total Nat.add].
       destruct (Nat.ltb_spec n (S d')), (Nat.ltb_spec n d'), (Nat.eqb_spec n d'); lia. }
  rewrite total_swap_fun. apply total_ext. intros j _.
  pose proof (C76_binomial W W us xs ys vs ltac:(lia) Hnd Hvs dist Hdist j) as E.
  rewrite Nat.sub_diag, Nat.pow_0_r, Nat.mul_1_l in E. rewrite <- E.
  rewrite <- (filter_test _ (fun l => dist l =? j)) by (intros; apply Nat.eqb_eq). by rewrite length_filter.
Qed.
End C76_recall.

(** Two bits, three tokens, one of them repeated in the second document: under one of eight one-bit
    token hashes the signatures differ. Of the 64 token hashes 49, 14 and 1 give distance 0, 1 and
    2; an index of two blocks with distance bound 1 finds the document under 49. *)
Definition c76_us : list N := [1;2;3]%N.
Definition c76_xs : list N := [1;2;3]%N.
Definition c76_ys : list N := [1;2;3;1]%N.
Definition c76_vs : list N := [0;1;2;3]%N.
Definition c76_dist (l : list N) : nat :=
  match create_signature 2 2 (given c76_us l) c76_xs, create_signature 2 2 (given c76_us l) c76_ys with
  | Some rx, Some ry => hamming 2 rx ry | _, _ => 0 end.
Definition c76_ops (l : list N) : list (sop N) :=
  match create_signature 2 2 (given c76_us l) c76_ys with
  | Some s => [SInsert 7 0; SInsert 8 1; SInsert 7 s]%N | None => [] end.
Definition c76_found (d : nat) (l : list N) : bool :=
  match create_signature 2 2 (given c76_us l) c76_xs with
  | Some s => match safter 2 2 d (c76_ops l) ≫= fun m => squery m s with
              | Some ids => bool_decide (7%N ∈ ids) | None => false end
  | None => false end.
Local Instance sop_fits_dec W (o : sop N) : Decision (sop_fits W o).
Proof. destruct o; cbn; apply _. Defined.
Example C76_example :
  Forall (fun l => Forall (sop_fits 2) (c76_ops l) /\ sspec_map (c76_ops l) !! 7%N = create_signature 2 2 (given c76_us l) c76_ys)
    (assignments c76_vs 3) /\
  let q := length (filter (fun l => create_signature 1 1 (given c76_us l) c76_xs ≠ create_signature 1 1 (given c76_us l) c76_ys)
    (assignments [0;1]%N 3)) in
  q = 1 /\ (fun j => length (filter (fun l => c76_dist l = j) (assignments c76_vs 3))) <$> [0;1;2] = [49;14;1] /\
  (fun d => length (filter (fun l => c76_found d l = true) (assignments c76_vs 3))) <$> [0;1;2] = [0;49;63] /\
  (fun j => binom 2 j * (q ^ j * (8 - q) ^ (2 - j))) <$> [0;1;2] = [49;14;1].
Proof.
  split; [|vm_compute; split_and!; reflexivity].
  apply (bool_decide_unpack _). vm_compute. exact I.
Qed.
(** One bit, two tokens and a third: a quarter of the token hashes. *)
Example C76_one_more_example :
  let dist l := match create_signature 1 1 (given [3;1;2]%N l) [3;1;2]%N, create_signature 1 1 (given [3;1;2]%N l) [1;2]%N with
                | Some rx, Some ry => hamming 1 rx ry | _, _ => 0 end in
  sum_list (dist <$> assignments [0;1]%N 3) = 2 /\ binom 2 (2 / 2) = 2 /\ length (assignments [0;1]%N 3) = 8.
Proof. vm_compute. split_and!; reflexivity. Qed.
Print Assumptions C76_one_more.
Print Assumptions C76_binomial.
Print Assumptions C76_mean.
Print Assumptions C76_variance.
Print Assumptions C76_deviation.
Print Assumptions C76_tail_above.
Print Assumptions C76_tail_below.
Print Assumptions C76_half.
Print Assumptions C76_recall.
