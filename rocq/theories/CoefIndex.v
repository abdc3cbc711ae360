(** A stored document is found under how many coefficients (C70). *)
From stdpp Require Import base list gmap.
From Coq Require Import NArith ZArith Lia Reals.
From Flocq Require Import Core BinarySingleNaN.
From Verif Require Import ListFacts Base Float FloatFacts F64Facts Container MinHashIndex MinHasher SpecIndex SpecMinHash MinHasherFacts
  SimilarityFacts MinHashIndexFacts MinHashIndexFacts2 MinHashIndexThms SpecTuples ExpectFacts TupleFacts CoefFacts.
Local Open Scope nat_scope.

Lemma ge_trans64 x y th rx ry : f64_valid th = true -> good64 x rx -> good64 y ry -> (rx <= ry)%R ->
  f64_ge x th = true -> f64_ge y th = true.
Proof.
  unfold f64_ge. intros Hv Hx Hy Hle Hge. destruct (is_finite_SF th) eqn:Ef.
  - assert (Ht : good64 th (SF2R radix2 th)) by (split; auto).
    apply (good_leb 53 1024 _ _ _ _ Ht Hy). apply (good_leb 53 1024 _ _ _ _ Ht Hx) in Hge. eapply Rle_trans; eauto.
  - destruct Hx as (_ & Fx & _), Hy as (_ & Fy & _).
    destruct th as [|[]| |]; try done; destruct x; try done; destruct y; done.
Qed.

Lemma share_agree {T} `{!EqDecision T} nb bw i (x y : list T) : i < nb -> length x = nb * bw -> length y = nb * bw ->
  share_band bw i x y -> bw <= agreements x y.
Proof.
  intros Hi Hx Hy Hs. unfold agreements. rewrite Hx.
  assert (E : seq 0 (nb * bw) = seq 0 (i * bw) ++ seq (i * bw) bw ++ seq (i * bw + bw) (nb * bw - (i * bw + bw))).
  { rewrite <- seq_app, <- (seq_app (i * bw)). f_equal. nia. }
  rewrite E, !filter_app, !app_length.
  assert (E2 : filter (fun j => x !! j = y !! j) (seq (i * bw) bw) = seq (i * bw) bw).
  { assert (Hall : Forall (fun j => x !! j = y !! j) (seq (i * bw) bw)).
    { apply Forall_forall. intros j Hj%elem_of_seq. apply Hs. lia. }
    clear -Hall. induction Hall; [done|]. rewrite filter_cons, decide_True by done. by f_equal. }
  rewrite E2, seq_length. lia.
Qed.

Lemma threshold_met {T} `{!EqDecision T} nb bw th i (x y : list T) : f64_valid th = true -> 0 < bw -> (N.of_nat (nb * bw) <= 2 ^ 53)%N ->
  f64_ge (f64_div (f64_of_N 1) (f64_of_N (N.of_nat nb))) th = true ->
  i < nb -> length x = nb * bw -> length y = nb * bw -> share_band bw i x y -> f64_ge (sim x y) th = true.
Proof.
  intros Hv Hbw Hb Hth Hi Hx Hy Hs. pose proof (share_agree nb bw i x y Hi Hx Hy Hs) as Ha.
  assert (Hn : 0 < nb * bw) by nia.
  eapply (ge_trans64 _ _ th _ _ Hv); [| | |exact Hth].
  - apply ratio64_good; nia.
  - apply sim_good; [nia|]. by rewrite Hx.
  - rewrite Hx. replace (IZR (Z.of_N 1) / IZR (Z.of_N (N.of_nat nb)))%R with (IZR (Z.of_nat bw) / IZR (Z.of_nat (nb * bw)))%R.
    + apply (ratio_mono 53 1024 Hprec64); lia.
    + rewrite nat_N_Z, Nat2Z.inj_mul, mult_IZR. field. split; apply not_0_IZR; lia.
Qed.

Section Curve.
Context {U : Type} (hash : U -> N) (kind : hasher_kind) (F : list (N * N)) (xs ys : list U).
Context {P : Type} `{Countable P} (ck : container_kind) (bh : list N -> N) (nb bw : nat) (th : f64).
Context (ops : list (N * N) -> list (op P N)) (id : P) (found : list (N * N) -> bool).
Notation n := (nb * bw).
Context (Hsized : forall cs, cs ∈ tuples F n -> well_sized n (spec_map n (ops cs))).
Context (Hstored : forall cs, cs ∈ tuples F n -> spec_map n (ops cs) !! id = create_signature kind hash (drawn cs) ys).
Context (Hfound : forall cs q S, cs ∈ tuples F n -> create_signature kind hash (drawn cs) xs = Some q ->
  query (container ck P) bh (after ck bh nb bw th (ops cs)) q = Some S -> found cs = bool_decide (id ∈ S)).
Notation same := (alike hash kind xs ys).
Notation a := (length (List.filter same F)).

Lemma signatures cs : cs ∈ tuples F n -> exists q s, create_signature kind hash (drawn cs) xs = Some q /\
  create_signature kind hash (drawn cs) ys = Some s /\ length q = n /\ length s = n.
Proof.
  intros Hcs. apply tuples_elem in Hcs as [Hl _].
  destruct (positions hash kind xs) as [v Hv], (positions hash kind ys) as [w Hw].
  exists (v <$> cs), (w <$> cs). rewrite Hv, Hw, !fmap_length. done.
Qed.

Lemma found_shared cs : f64_valid th = true -> 0 < bw -> (N.of_nat n <= 2 ^ 53)%N ->
  f64_ge (f64_div (f64_of_N 1) (f64_of_N (N.of_nat nb))) th = true ->
  cs ∈ tuples F n -> no_block same bw nb cs = false -> found cs = true.
Proof.
  intros Hv Hbw Hb Hth Hcs Hno. destruct (signatures cs Hcs) as (q & s & Hq & Hs & Lq & Ls).
  destruct (proj2 (shared_alike hash kind xs ys cs q s bw nb Hq Hs) Hno) as (i & Hi & Hsh).
  destruct (recall ck bh nb bw th (ops cs) q (Hsized cs Hcs) Lq) as (S & ES & Hrec).
  rewrite (Hfound cs q S Hcs Hq ES). apply bool_decide_eq_true. apply (Hrec id s i); [by rewrite Hstored| |done|].
  - eapply (threshold_met nb bw th i); try done. intros j Hj. symmetry. by apply Hsh.
  - intros j Hj. symmetry. by apply Hsh.
Qed.
Lemma found_only_shared cs : clean n (ops cs) -> collision_free bw bh -> cs ∈ tuples F n -> found cs = true -> no_block same bw nb cs = false.
Proof.
  intros Hc Hf Hcs Hfd. destruct (signatures cs Hcs) as (q & s & Hq & Hs & Lq & Ls).
  apply (shared_alike hash kind xs ys cs q s bw nb Hq Hs).
  destruct (exact_answer ck bh nb bw th (ops cs) q Hc Lq) as (S & ES & Hex).
  rewrite (Hfound cs q S Hcs Hq ES) in Hfd. apply bool_decide_eq_true in Hfd. apply Hex in Hfd.
  apply expected_answer_collision_free in Hfd as (s' & Es & _ & i & Hi & Hsh); [|done|by apply Hsized|done].
  rewrite Hstored, Hs in Es by done. injection Es as <-. exists i. split; [done|]. intros j Hj. symmetry. by apply Hsh.
Qed.

Lemma complement : total (fun cs => if negb (no_block same bw nb cs) then 1 else 0) (tuples F n) + (length F ^ bw - a ^ bw) ^ nb = length F ^ n.
Proof.
  rewrite <- no_hits, <- total_plus. rewrite (total_ext _ (fun _ => 1)) by (intros cs _; by destruct (no_block _ _ _ _)).
  rewrite total_const, tuples_count. lia.
Qed.
Lemma curve_recall : f64_valid th = true -> 0 < bw -> (N.of_nat n <= 2 ^ 53)%N ->
  f64_ge (f64_div (f64_of_N 1) (f64_of_N (N.of_nat nb))) th = true ->
  length F ^ n <= length (List.filter found (tuples F n)) + (length F ^ bw - a ^ bw) ^ nb.
Proof.
  intros Hv Hbw Hb Hth. rewrite <- complement, (length_filter found). apply Nat.add_le_mono_r, total_le. intros cs Hcs.
  destruct (no_block same bw nb cs) eqn:E; cbn [negb]; [lia|]. by rewrite found_shared.
Qed.
Lemma curve_upper : (forall cs, cs ∈ tuples F n -> clean n (ops cs)) -> collision_free bw bh ->
  length (List.filter found (tuples F n)) + (length F ^ bw - a ^ bw) ^ nb <= length F ^ n.
Proof.
  intros Hc Hf. rewrite <- complement, (length_filter found). apply Nat.add_le_mono_r, total_le. intros cs Hcs.
  destruct (found cs) eqn:E; [|lia]. by rewrite (found_only_shared cs (Hc cs Hcs) Hf Hcs E).
Qed.
End Curve.
