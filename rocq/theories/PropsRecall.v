(** Property C75: what the computed number and width of bands achieve.

    [share_bucket p r b] is the probability [1 - (1 - p^r)^b] (SpecRecall.v), in real numbers;
    [real_of] the real number of a float. *)
From stdpp Require Import base list gmap.
From Coq Require Import Reals NArith ZArith Lia Lra.
From Verif Require Import Base Float Container MinHashIndex MinHasher SpecIndex SpecTuples ExampleIndex TupleFacts PropsCoef
  Params ParamsFacts SpecAngle SpecRecall RecallFacts.
Local Open Scope R_scope.

Section C75.
Context (powf : f64 -> f64 -> f64) (Hpow : accurate powf).
Context (s p : f64) (Hs : unit_float s) (Hp : finite_float p) (n : nat) (Hn : (N.of_nat n <= 2 ^ 53)%N).

(** Bands of two positions or more reach the desired probability, up to rounding ... *)
Theorem C75_reaches (b r : nat) : calculate_minhash_params_with_proba powf s n p = Some (b, r) -> (2 <= r)%nat ->
  real_of p - 3 * (INR b + 1) * powerRZ 2 (-53) < share_bucket (real_of s) r b.
Proof using Hpow Hs Hp Hn.
  intros E Hr. destruct (b_and_r_spec powf s n p) as (b' & r' & E' & _ & Hb & _ & Hbr & Hw & _).
  unfold calculate_minhash_params_with_proba in E. rewrite E' in E. injection E as -> ->.
  specialize (Hw r ltac:(lia)). unfold passes in Hw. rewrite <- Hb in Hw.
  destruct (decide (1 <= n)%nat) as [H1|H1].
  - destruct (Hbr H1). pose proof (test_sound powf Hpow s p b r Hs Hp ltac:(lia) ltac:(lia) ltac:(lia)) as Ht.
    rewrite Hw in Ht. apply Ht. assert (b <= n)%nat; [|lia]. rewrite Hb. apply Nat.div_le_upper_bound; nia.
  - exfalso. assert (n = 0)%nat as -> by lia. revert E'. unfold calculate_b_and_r. cbn [search]. cbn. intros [=]. lia.
Qed.

(** ... and wider bands do not. *)
Theorem C75_widest (b r b' r' : nat) : calculate_minhash_params_with_proba powf s n p = Some (b, r) -> (1 < b)%nat ->
  (r < r')%nat -> (b' * r' <= n)%nat ->
  share_bucket (real_of s) r' b' <= real_of p + 3 * (INR b + 1) * powerRZ 2 (-53).
Proof using Hpow Hs Hp Hn.
  intros E Hb1 Hr' Hb'. destruct (b_and_r_spec powf s n p) as (b0 & r0 & E' & Hr & Hb & Hbn & Hbr & _ & Hw).
  unfold calculate_minhash_params_with_proba in E. rewrite E' in E. injection E as -> ->.
  specialize (Hw Hb1). unfold passes in Hw. set (b1 := (n / (r + 1))%nat) in *.
  assert (Hb1b : (b1 <= b)%nat).
  { unfold b1. rewrite Hb. apply Nat.div_le_compat_l. lia. }
  assert (Hrn : (r + 1 <= n)%nat) by nia.
  assert (H1 : (1 <= b1)%nat) by (apply Nat.div_le_lower_bound; lia).
  pose proof (test_sound powf Hpow s p b1 (r + 1) Hs Hp ltac:(lia) H1 ltac:(lia) ltac:(nia)) as Ht.
  destruct (f64_gt _ p); [done|]. eapply Rle_trans; [|eapply Rle_trans; [exact Ht|]].
  - apply share_narrower; [apply Hs|lia|]. apply Nat.div_le_lower_bound; nia.
  - apply le_INR in Hb1b. pose proof u_pos. nra.
Qed.
End C75.

(** Similarity [m / d]: all widths from 2 to [r] have more than 0.991 at [m / d - 1/1000], and
    [r + 1] less than 0.989 at [m / d + 1/1000]. *)
Definition clear_cut (m d : Z) (n r : nat) : bool :=
  let power d r b := (d ^ (Z.of_nat r * Z.of_nat b))%Z in
  forallb (fun w => 991 * power (1000 * d) w (n / w)%nat <? 1000 * whole (1000 * m - d) (1000 * d) w (n / w)%nat)%Z (seq 2 (r - 1)) &&
  (1000 * whole (1000 * m + d) (1000 * d) (r + 1)%nat (n / (r + 1))%nat <? 989 * power (1000 * d) (r + 1)%nat (n / (r + 1))%nat)%Z.

Lemma documented powf (Hpow : accurate powf) (m d : N) (n r : nat) (z : positive) :
  (1 <= r)%nat -> (1 < n / r)%nat -> (n <= 1000)%nat -> (1 <= m)%N -> (m < d <= 1000)%N ->
  f64_div (f64_of_N m) (f64_of_N d) = S754_finite false z (-53) ->
  f64_valid (S754_finite false z (-53)) = true ->
  ((1000 * Z.of_N m - Z.of_N d) * 9007199254740992 <=? Z.pos z * (1000 * Z.of_N d))%Z = true ->
  (Z.pos z * (1000 * Z.of_N d) <=? (1000 * Z.of_N m + Z.of_N d) * 9007199254740992)%Z = true ->
  clear_cut (Z.of_N m) (Z.of_N d) n r = true ->
  calculate_minhash_params powf (f64_div (f64_of_N m) (f64_of_N d)) n = Some ((n / r)%nat, r).
Proof.
  intros Hr Hb Hn Hm Hd E Hv H1%Z.leb_le H2%Z.leb_le [Ha Hl]%andb_true_iff.
  rewrite forallb_forall in Ha. apply Z.ltb_lt in Hl.
  assert (Hz : (Z.pos z <= 9007199254740992)%Z) by nia.
  destruct (div_unit m d z (-53) E Hv eq_refl Hz) as [Hs Es].
  destruct (div_unit 99 100 8917127262193582 (-53)) as [Hp Ep]; [vm_compute; reflexivity|reflexivity|done|lia|].
  set (s := f64_div (f64_of_N m) (f64_of_N d)) in *.
  unfold calculate_minhash_params. set (p := f64_div (f64_of_N 99) (f64_of_N 100)) in *.
  assert (Hd' : (0 < 1000 * Z.of_N d)%Z) by lia.
  assert (Hdr : 0 < IZR (1000 * Z.of_N d)) by (apply IZR_lt; lia).
  apply IZR_le in H1, H2. rewrite (mult_IZR _ 9007199254740992), (mult_IZR (Z.pos z)) in H1.
  rewrite (mult_IZR _ 9007199254740992), (mult_IZR (Z.pos z)) in H2.
  assert (Hlow : 0 <= IZR (1000 * Z.of_N m - Z.of_N d) / IZR (1000 * Z.of_N d) <= real_of s).
  { rewrite Es. split.
    - apply Rmult_le_pos; [apply IZR_le; lia|left; by apply Rinv_0_lt_compat].
    - apply (Rmult_le_reg_r (IZR (1000 * Z.of_N d))); [done|].
      unfold Rdiv at 1. rewrite Rmult_assoc, Rinv_l, Rmult_1_r by lra. lra. }
  assert (Hhigh : real_of s <= IZR (1000 * Z.of_N m + Z.of_N d) / IZR (1000 * Z.of_N d)).
  { rewrite Es. apply (Rmult_le_reg_r (IZR (1000 * Z.of_N d))); [done|].
    unfold Rdiv at 2. rewrite Rmult_assoc, Rinv_l, Rmult_1_r by lra. lra. }
  assert (Hone : IZR (1000 * Z.of_N m + Z.of_N d) / IZR (1000 * Z.of_N d) <= 1).
  { apply (Rmult_le_reg_r (IZR (1000 * Z.of_N d))); [done|].
    unfold Rdiv. rewrite Rmult_assoc, Rinv_l, Rmult_1_r, Rmult_1_l by lra. apply IZR_le. lia. }
  assert (Herr : forall b, (b <= n)%nat -> 0 <= 3 * (INR b + 1) * powerRZ 2 (-53) <= / 10000).
  { intros b Hbn. rewrite u_val. pose proof (pos_INR b).
    assert (INR b <= 1000) by (replace 1000 with (INR 1000) by (rewrite INR_IZR_INZ; reflexivity); apply le_INR; lia). lra. }
  assert (Hnw : forall w, (n / w <= n)%nat).
  { intros [|w]; [cbn; lia|]. apply Nat.div_le_upper_bound; nia. }
  apply search_answer; [done|done| |].
  - intros w Hw. unfold passes.
    assert (1 <= n / w)%nat.
    { etransitivity; [|apply (Nat.div_le_compat_l n w r)]; lia. }
    assert (w <= n)%nat. { destruct (decide (w <= n)%nat); [done|]. rewrite Nat.div_small in H; lia. }
    apply (test_true powf Hpow); [done|apply Hp|lia|done|lia|specialize (Hnw w); lia|].
    specialize (Herr _ (Hnw w)). specialize (Ha w). rewrite in_seq in Ha. specialize (Ha ltac:(lia)).
    apply Z.ltb_lt in Ha. apply share_above in Ha; [|done].
    pose proof (share_similarity _ (real_of s) w (n / w) Hlow (proj2 (proj2 Hs))). rewrite Ep. lra.
  - unfold passes. assert (Hrn : (r + 1 <= n)%nat).
    { pose proof (Nat.mul_div_le n r ltac:(lia)). nia. }
    assert (1 <= n / (r + 1))%nat by (apply Nat.div_le_lower_bound; lia).
    rewrite (test_false powf Hpow s p); [done|done|apply Hp|lia|done|lia|specialize (Hnw (r + 1)%nat); lia|].
    specialize (Herr _ (Hnw (r + 1)%nat)). apply share_below in Hl; [|done].
    pose proof (share_similarity (real_of s) _ (r + 1) (n / (r + 1)) (conj (proj1 (proj2 Hs)) Hhigh) Hone). rewrite Ep. lra.
Qed.

(** The two calls documented in the source give the documented answers with every accurate power. *)
Theorem C75_documented (powf : f64 -> f64 -> f64) : accurate powf ->
  calculate_minhash_params powf (f64_div (f64_of_N 1) (f64_of_N 2)) 128 = Some (42, 3)%nat /\
  calculate_minhash_params powf (f64_div (f64_of_N 7) (f64_of_N 10)) 196 = Some (39, 5)%nat.
Proof.
  intros Hpow. split.
  - apply (documented powf Hpow 1 2 128 3 4503599627370496); first [lia|vm_compute; reflexivity|vm_compute; lia].
  - apply (documented powf Hpow 7 10 196 5 6305039478318694); first [lia|vm_compute; reflexivity|vm_compute; lia].
Qed.

(** The first hypothesis is met: by the power taken from multiplications of reals, rounded. *)
Example C75_accurate_example : accurate pow_exact.
Proof. exact pow_exact_accurate. Qed.
Print Assumptions C75_reaches.
Print Assumptions C75_widest.
Print Assumptions C75_documented.

Section C75_recall.
Context {U : Type} (hash : U -> N) (kind : hasher_kind) (F : list (N * N)) (xs ys : list U).
Context {P : Type} `{Countable P} (ck : container_kind) (bh : list N -> N) (nb bw : nat) (th : f64).
Context (ops : list (N * N) -> list (op P N)) (id : P).
Context (Hsized : forall cs, cs ∈ tuples F (nb * bw) -> well_sized (nb * bw) (spec_map (nb * bw) (ops cs))).
Context (Hstored : forall cs, cs ∈ tuples F (nb * bw) -> spec_map (nb * bw) (ops cs) !! id = create_signature kind hash (drawn cs) ys).
Context (found : list (N * N) -> bool).
Context (Hfound : forall cs q S, cs ∈ tuples F (nb * bw) -> create_signature kind hash (drawn cs) xs = Some q ->
  query (container ck P) bh (after ck bh nb bw th (ops cs)) q = Some S -> found cs = bool_decide (id ∈ S)).
Notation one ab items := (create_signature kind hash (drawn [ab]) items).
Notation a := (length (filter (fun ab => one ab xs = one ab ys) F)).

(** An index built with the computed bands and widths (2 or more) and a threshold up to [1 / nb]:
    a document stored in it that shares a hash with the query with probability at least [s] is
    found with more than the desired probability [p], up to rounding. *)
Theorem C75_recall (powf : f64 -> f64 -> f64) (s p : f64) (n : nat) : accurate powf -> unit_float s -> finite_float p ->
  (N.of_nat n <= 2 ^ 53)%N -> calculate_minhash_params_with_proba powf s n p = Some (nb, bw) -> (2 <= bw)%nat ->
  f64_valid th = true -> f64_ge (f64_div (f64_of_N 1) (f64_of_N (N.of_nat nb))) th = true ->
  F <> [] -> real_of s <= INR a / INR (length F) ->
  (real_of p - 3 * (INR nb + 1) * powerRZ 2 (-53)) * INR (length (tuples F (nb * bw))) <
  INR (length (filter (fun cs => found cs = true) (tuples F (nb * bw)))).
Proof using Hsized Hstored Hfound.
  intros Hpow Hs Hp Hn E Hbw Hth Hge HF Ha.
  pose proof (C75_reaches powf Hpow s p Hs Hp n Hn nb bw E Hbw) as Hr.
  assert (Hnn : (nb * bw <= n)%nat).
  { destruct (b_and_r_spec powf s n p) as (b' & r' & E' & _ & _ & Hbn & _).
    unfold calculate_minhash_params_with_proba in E. rewrite E' in E. injection E as -> ->. lia. }
  assert (HL : (0 < length F)%nat) by (destruct F; [done|cbn; lia]).
  assert (HaL : (a <= length F)%nat) by apply filter_length.
  pose proof (C70_at_least hash kind F xs ys ck bh nb bw th ops id Hsized Hstored found Hfound Hth ltac:(lia) ltac:(lia) Hge) as H1.
  rewrite tuples_count. set (t := length (filter _ (tuples F _))) in *. set (L := length F) in *. set (m := a) in *.
  apply lt_INR in HL. cbn [INR] in HL.
  assert (Hx : share_bucket (INR m / INR L) bw nb * INR (L ^ (nb * bw)) <= INR t).
  { assert (m ^ bw <= L ^ bw)%nat by (apply Nat.pow_le_mono_l; lia).
    apply le_INR in H1. rewrite plus_INR, !pow_INR, minus_INR, !pow_INR in H1 by done.
    rewrite pow_INR. unfold share_bucket, Rdiv. rewrite Rpow_mult_distr, pow_inv.
    assert (0 < INR L ^ bw) by (apply pow_lt; lra).
    rewrite (Nat.mul_comm nb), pow_mult in H1 |- *. rewrite Rmult_minus_distr_r, Rmult_1_l, <- Rpow_mult_distr.
    replace ((1 - INR m ^ bw * / INR L ^ bw) * INR L ^ bw) with (INR L ^ bw - INR m ^ bw) by (field; lra). lra. }
  apply le_INR in HaL.
  assert (INR m / INR L <= 1).
  { apply (Rmult_le_reg_r (INR L)); [done|]. unfold Rdiv. rewrite Rmult_assoc, Rinv_l by lra. lra. }
  pose proof (share_similarity _ _ bw nb (conj (proj1 (proj2 Hs)) Ha) H0).
  assert (0 < INR (L ^ (nb * bw))) by (rewrite pow_INR; apply pow_lt; lra).
  eapply Rlt_le_trans; [|exact Hx]. apply Rmult_lt_compat_r; lra.
Qed.
End C75_recall.

(** Similarity one half, four hashes, desired probability 2/5: two bands of two positions; the
    document is found under 112 of 256 choices (C70). *)
Example C75_example :
  let s := ExampleIndex.half in let p := f64_div (f64_of_N 2) (f64_of_N 5) in
  calculate_minhash_params_with_proba pow_exact s 4 p = Some (2, 2)%nat /\
  f64_ge (f64_div (f64_of_N 1) (f64_of_N 2)) s = true /\
  Forall (fun cs => spec_map 4 (c70_ops cs) !! 7%N = create_signature MinHasher32 c69_hash (drawn cs) c69_ys) (tuples c69_coefs 4) /\
  length (filter (fun ab => create_signature MinHasher32 c69_hash (drawn [ab]) c69_xs = create_signature MinHasher32 c69_hash (drawn [ab]) c69_ys) c69_coefs) = 2%nat /\
  length c69_coefs = 4%nat /\ length (filter (fun cs => c70_found s cs = true) (tuples c69_coefs 4)) = 112%nat.
Proof.
  cbn zeta. split; [vm_compute; reflexivity|]. split; [vm_compute; reflexivity|].
  split; [apply (bool_decide_unpack _); vm_compute; exact I|]. split; [vm_compute; reflexivity|]. split; vm_compute; reflexivity.
Qed.
Example C75_example_unit : unit_float ExampleIndex.half /\ finite_float (f64_div (f64_of_N 2) (f64_of_N 5)) /\
  real_of ExampleIndex.half <= INR 2 / INR 4.
Proof.
  destruct (div_unit 1 2 4503599627370496 (-53)) as [Hs Es]; [vm_compute; reflexivity|reflexivity|done|lia|].
  split; [exact Hs|]. split; [by split|]. unfold ExampleIndex.half. rewrite Es. cbn [INR]. lra.
Qed.
Print Assumptions C75_recall.

(** With the similarity [s] itself as the threshold the desired probability can be missed: three
    bands of two positions share a bucket with probability 0.578, but the document is
    found with probability 0.531 only: the others agree in two positions of six. *)
Definition c75_coefs : list (N * N) := take 2 c69_coefs.
Definition c75_ops (cs : list (N * N)) : list (op N N) :=
  match create_signature MinHasher32 c69_hash (drawn cs) c69_ys with
  | Some s => [Insert 7 s]%N | None => [] end.
Definition c75_found (cs : list (N * N)) : bool :=
  match create_signature MinHasher32 c69_hash (drawn cs) c69_xs with
  | Some q => match query (container KVec N) bh_injective (after KVec bh_injective 3 2 ExampleIndex.half (c75_ops cs)) q with
              | Some ids => bool_decide (7%N ∈ ids) | None => false end
  | None => false end.
Definition c75_answered (cs : list (N * N)) : bool :=
  bool_decide (spec_map 6 (c75_ops cs) !! 7%N = create_signature MinHasher32 c69_hash (drawn cs) c69_ys) &&
  bool_decide (is_Some (q ← create_signature MinHasher32 c69_hash (drawn cs) c69_xs;
      query (container KVec N) bh_injective (after KVec bh_injective 3 2 ExampleIndex.half (c75_ops cs)) q)).
Theorem C75_threshold_refuted :
  exists (hash : N -> N) (kind : hasher_kind) (F : list (N * N)) (xs ys : list N) (nb bw n : nat) (s p : f64)
    (ops : list (N * N) -> list (op N N)) (id : N) (found : list (N * N) -> bool),
  calculate_minhash_params_with_proba pow_exact s n p = Some (nb, bw) /\ (nb * bw = n)%nat /\
  (forall cs, cs ∈ tuples F n -> spec_map n (ops cs) !! id = create_signature kind hash (drawn cs) ys /\
    exists q S, create_signature kind hash (drawn cs) xs = Some q /\
      query (container KVec N) bh_injective (after KVec bh_injective nb bw s (ops cs)) q = Some S /\
      found cs = bool_decide (id ∈ S)) /\
  real_of s * INR (length F) = INR (length (filter (fun ab => create_signature kind hash (drawn [ab]) xs = create_signature kind hash (drawn [ab]) ys) F)) /\
  INR (length (filter (fun cs => found cs = true) (tuples F n))) < (real_of p - / 100) * INR (length (tuples F n)).
Proof.
  exists c69_hash, MinHasher32, c75_coefs, c69_xs, c69_ys, 3%nat, 2%nat, 6%nat, ExampleIndex.half,
    (f64_div (f64_of_N 55) (f64_of_N 100)), c75_ops, 7%N, c75_found.
  destruct (div_unit 1 2 4503599627370496 (-53)) as [_ Es]; [vm_compute; reflexivity|reflexivity|done|lia|].
  destruct (div_unit 55 100 4953959590107546 (-53)) as [_ Ep]; [vm_compute; reflexivity|reflexivity|done|lia|].
  split; [vm_compute; reflexivity|]. split; [done|]. split.
  { assert (Ha : forallb c75_answered (tuples c75_coefs 6) = true) by (vm_compute; reflexivity).
    rewrite forallb_forall in Ha. intros cs Hcs%elem_of_list_In. apply Ha in Hcs as [H1 H2]%andb_true_iff.
    apply bool_decide_eq_true in H1, H2. split; [done|]. destruct H2 as [S HS].
    apply bind_Some in HS as (q & Hc & HS). exists q, S. split; [done|]. split; [done|]. unfold c75_found. by rewrite Hc, HS. }
  split.
  - change (real_of ExampleIndex.half) with (real_of (f64_div (f64_of_N 1) (f64_of_N 2))). rewrite Es.
    match goal with |- _ = INR ?n => assert (n = 1%nat) as -> by (vm_compute; reflexivity) end.
    change (length c75_coefs) with 2%nat; cbn [INR]. lra.
  - match goal with |- INR ?n < _ => assert (n = 34%nat) as -> by (vm_compute; reflexivity) end.
    rewrite tuples_count, Ep. change (length c75_coefs ^ 6)%nat with 64%nat. rewrite !INR_IZR_INZ.
    change (Z.of_nat 34) with 34%Z. change (Z.of_nat 64) with 64%Z. lra.
Qed.
Print Assumptions C75_threshold_refuted.

(** Bands of one position are the answer without a test: with two hashes, similarity one half and
    probability 0.99 the answer reaches 3/4. *)
Theorem C75_width_one_refuted : exists (s p : f64) (n b : nat), unit_float s /\ unit_float p /\
  calculate_minhash_params_with_proba pow_exact s n p = Some (b, 1%nat) /\
  share_bucket (real_of s) 1 b < real_of p - / 5.
Proof.
  destruct (div_unit 1 2 4503599627370496 (-53)) as [Hs Es]; [vm_compute; reflexivity|reflexivity|done|lia|].
  destruct (div_unit 99 100 8917127262193582 (-53)) as [Hp Ep]; [vm_compute; reflexivity|reflexivity|done|lia|].
  exists (f64_div (f64_of_N 1) (f64_of_N 2)), (f64_div (f64_of_N 99) (f64_of_N 100)), 2%nat, 2%nat.
  split; [done|]. split; [done|]. split; [vm_compute; reflexivity|]. rewrite Es, Ep. unfold share_bucket. cbn [Rpow_def.pow]. lra.
Qed.
Print Assumptions C75_width_one_refuted.
