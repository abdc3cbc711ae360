(** When the answers of the MinHash index are those of a scan of all stored signatures. *)
From stdpp Require Import base list gmap.
From Coq Require Import NArith ZArith Reals Lra Lia.
From Flocq Require Import Core BinarySingleNaN.
From Verif Require Import Base Par Float FloatFacts F64Facts Container MinHashIndex SpecIndex SpecScan
  SimilarityFacts SimilarityThms MinHashIndexFacts MinHashIndexFacts2 MinHashIndexThms.
Local Open Scope nat_scope.

Local Existing Instance Hprec64.

Section Scan.
Context {T : Type} `{!EqDecision T}.
Context {Id : Type} `{Countable Id}.
Implicit Types (ops : list (op Id T)) (q : list T).

(** A similarity above [(bw - 1) / bw] leaves fewer disagreements than bands. *)
Lemma above_disagreements nb bw (s q : list T) :
  0 < nb -> 0 < bw -> (N.of_nat (nb * bw) <= 2 ^ 53)%N -> length s = nb * bw ->
  f64_gt (sim s q) (band_bound bw) = true -> nb * bw - agreements s q < nb.
Proof.
  intros Hnb Hbw Hb Hl Hgt.
  assert (Hpos : 0 < length s) by nia.
  assert (Hs : good64 (sim s q)
            (rnd64 (IZR (Z.of_nat (agreements s q)) / IZR (Z.of_nat (length s))))).
  { apply sim_good; [done|by rewrite Hl]. }
  assert (Hr : good64 (band_bound bw)
            (rnd64 (IZR (Z.of_N (N.of_nat (bw - 1))) / IZR (Z.of_N (N.of_nat bw))))).
  { apply ratio64_good; [lia|]. split; [lia|]. nia. }
  unfold f64_gt in Hgt. apply (good_ltb 53 1024 _ _ _ _ Hr Hs) in Hgt.
  destruct (decide (agreements s q <= nb * (bw - 1))) as [Hle|Hgt']; [|nia]. exfalso.
  assert (rnd64 (IZR (Z.of_nat (agreements s q)) / IZR (Z.of_nat (length s)))
          <= rnd64 (IZR (Z.of_N (N.of_nat (bw - 1))) / IZR (Z.of_N (N.of_nat bw))))%R; [|lra].
  apply round_le; [apply FLT_exp_valid; exact Hprec64|apply valid_rnd_N|].
  rewrite !nat_N_Z, Hl.
  assert (Hn : (0 < IZR (Z.of_nat nb))%R) by (apply IZR_lt; lia).
  assert (Hw : (0 < IZR (Z.of_nat bw))%R) by (apply IZR_lt; lia).
  rewrite Nat2Z.inj_mul, mult_IZR.
  apply Rle_trans with (IZR (Z.of_nat (nb * (bw - 1))) / (IZR (Z.of_nat nb) * IZR (Z.of_nat bw)))%R.
  - apply Rmult_le_compat_r; [|apply IZR_le; lia].
    apply Rlt_le, Rinv_0_lt_compat. nra.
  - rewrite Nat2Z.inj_mul, mult_IZR. right. field. lra.
Qed.

Lemma ge_gt_trans x y z : f64_valid x = true -> f64_valid y = true -> f64_valid z = true ->
  f64_ge x y = true -> f64_gt y z = true -> f64_gt x z = true.
Proof.
  intros Hx Hy Hz Hge Hgt.
  destruct (ge_not_nan _ _ Hge) as [Nx Ny]. destruct (gt_not_nan _ _ Hgt) as [_ Nz].
  apply ge_key in Hge; [|done..]. apply gt_key in Hgt; [|done..]. apply gt_key; [done..|]. lra.
Qed.

Lemma gt_ge_trans x y z : f64_valid x = true -> f64_valid y = true -> f64_valid z = true ->
  f64_gt x y = true -> f64_ge y z = true -> f64_gt x z = true.
Proof.
  intros Hx Hy Hz Hgt Hge.
  destruct (ge_not_nan _ _ Hge) as [_ Nz]. destruct (gt_not_nan _ _ Hgt) as [Nx Ny].
  apply ge_key in Hge; [|done..]. apply gt_key in Hgt; [|done..]. apply gt_key; [done..|]. lra.
Qed.

Lemma scan_query k bh nb bw th ops q :
  well_sized (nb * bw) (spec_map (nb * bw) ops) -> length q = nb * bw ->
  (forall id s, spec_map (nb * bw) ops !! id = Some s -> f64_ge (sim s q) th = true ->
     exists i, i < nb /\ share_band bw i s q) ->
  exists S, query (container k Id) bh (after k bh nb bw th ops) q = Some S /\
    forall id, id ∈ S <-> scan (spec_map (nb * bw) ops) th q id.
Proof.
  intros Hw Hq Hv. destruct (recall k bh nb bw th ops q Hw Hq) as (S & HS & Hrec).
  exists S. split; [done|]. intros id. split.
  - intros Hid. destruct (query_sound _ bh nb bw th _ _ _ _ _ (after_inv k bh nb bw th ops) HS Hid)
      as (s & Hs & _ & Hge). by exists s.
  - intros (s & Hs & Hge). destruct (Hv _ _ Hs Hge) as (i & Hi & Hsh). eauto.
Qed.

Lemma above_shares nb bw (s q : list T) :
  0 < nb -> 0 < bw -> (N.of_nat (nb * bw) <= 2 ^ 53)%N -> length s = nb * bw -> length q = nb * bw ->
  f64_gt (sim s q) (band_bound bw) = true -> exists i, i < nb /\ share_band bw i s q.
Proof.
  intros Hnb Hbw Hb Hl Hq Hgt.
  pose proof (above_disagreements nb bw s q Hnb Hbw Hb Hl Hgt).
  destruct (mismatches_pigeonhole nb bw s q Hl Hq) as (i & Hi & Hsh); [lia|]. eauto.
Qed.

Lemma threshold_query k bh nb bw th ops q :
  0 < nb -> 0 < bw -> (N.of_nat (nb * bw) <= 2 ^ 53)%N ->
  f64_valid th = true -> f64_gt th (band_bound bw) = true ->
  well_sized (nb * bw) (spec_map (nb * bw) ops) -> length q = nb * bw ->
  exists S, query (container k Id) bh (after k bh nb bw th ops) q = Some S /\
    forall id, id ∈ S <-> scan (spec_map (nb * bw) ops) th q id.
Proof.
  intros Hnb Hbw Hb Hv Hth Hw Hq. apply scan_query; [done..|].
  intros id s Hs Hge. apply above_shares; eauto.
  eapply ge_gt_trans; [..|exact Hge|exact Hth]; [apply div_valid|done|apply div_valid].
Qed.

Lemma threshold_query_one k bh nb bw th ops q order :
  0 < nb -> 0 < bw -> (N.of_nat (nb * bw) <= 2 ^ 53)%N ->
  f64_valid th = true -> f64_ge th (band_bound bw) = true ->
  well_sized (nb * bw) (spec_map (nb * bw) ops) -> length q = nb * bw -> is_order order ->
  exists r, query_one (container k Id) bh order (after k bh nb bw th ops) q = Some r /\
    scan_best (spec_map (nb * bw) ops) th q r.
Proof.
  intros Hnb Hbw Hb Hv Hth Hw Hq Hord.
  destruct (query_one_any k bh nb bw th ops q order Hv Hw Hq Hord) as (r & Hr & Hsp).
  exists r. split; [done|].
  assert (Hsh : forall id s, spec_map (nb * bw) ops !! id = Some s -> f64_gt (sim s q) th = true ->
    exists i, i < nb /\ share_band bw i s q).
  { intros id s Hs Hgt. apply above_shares; eauto.
    eapply gt_ge_trans; [..|exact Hgt|exact Hth]; [apply div_valid|done|apply div_valid]. }
  destruct r as [[id v]|]; simpl.
  - destruct Hsp as (s & Hs & -> & Hgt & Hbest). exists s. split; [done|]. split; [done|].
    split; [done|]. intros id' s' Hs'. destruct (f64_gt (sim s' q) (sim s q)) eqn:E; [|done].
    destruct (Hsh id' s' Hs') as (i & Hi & Hb').
    { destruct (gt_not_nan _ _ E) as [N1 N2]. destruct (gt_not_nan _ _ Hgt) as [_ N3].
      apply gt_key in E; [|apply div_valid..|done|done].
      apply gt_key in Hgt; [|apply div_valid|done..].
      apply gt_key; [apply div_valid|done..|]. lra. }
    by rewrite (Hbest id' s' i) in E.
  - intros id' s' Hs'. destruct (f64_gt (sim s' q) th) eqn:E; [|done].
    destruct (Hsh id' s' Hs' E) as (i & Hi & Hb'). by rewrite (Hsp id' s' i) in E.
Qed.
End Scan.

(** *** The bound is sharp for every shape of index *)
Lemma spoilt_S nb bw : spoilt (S nb) bw = (1%N :: replicate (bw - 1) 0%N) ++ spoilt nb bw.
Proof. reflexivity. Qed.

Lemma spoilt_length nb bw : 0 < bw -> length (spoilt nb bw) = nb * bw.
Proof.
  intros Hbw. induction nb as [|nb IH]; [done|].
  rewrite spoilt_S, app_length, IH. cbn [length].
  rewrite replicate_length. lia.
Qed.

Lemma agreements_app {T} `{!EqDecision T} (x1 x2 y1 y2 : list T) : length x1 = length y1 ->
  agreements (x1 ++ x2) (y1 ++ y2) = agreements x1 y1 + agreements x2 y2.
Proof.
  revert y1. induction x1 as [|a x1 IH]; intros [|b y1] Hl; try discriminate.
  - done.
  - cbn [app]. rewrite !agreements_cons, IH by (simpl in Hl; lia). lia.
Qed.

Lemma spoilt_agreements nb bw : 0 < bw ->
  agreements (replicate (nb * bw) 0%N) (spoilt nb bw) = nb * (bw - 1).
Proof.
  intros Hbw. induction nb as [|nb IH]; [done|].
  rewrite spoilt_S. replace (S nb * bw) with (bw + nb * bw) by lia.
  rewrite replicate_add, agreements_app.
  2:{ rewrite replicate_length. cbn [length]. rewrite replicate_length. lia. }
  rewrite IH. destruct bw as [|w]; [lia|]. cbn [replicate].
  rewrite agreements_cons. replace (S w - 1) with w by lia. rewrite agreements_refl.
  rewrite replicate_length. destruct (decide _); [done|]. lia.
Qed.

Lemma spoilt_lookup nb bw i : 0 < bw -> i < nb -> spoilt nb bw !! (i * bw) = Some 1%N.
Proof.
  intros Hbw. revert i. induction nb as [|nb IH]; intros i Hi; [lia|].
  rewrite spoilt_S. destruct i as [|i]; [done|].
  replace (S i * bw) with (bw + i * bw) by lia.
  rewrite lookup_app_r by (cbn [length]; rewrite replicate_length; lia).
  cbn [length]. rewrite replicate_length.
  replace (bw + i * bw - S (bw - 1)) with (i * bw) by lia. apply IH. lia.
Qed.

Lemma sharp_query k bh nb bw : 0 < nb -> 0 < bw -> (N.of_nat (nb * bw) <= 2 ^ 53)%N ->
  collision_free bw bh ->
  let ops := [Insert 0%N (replicate (nb * bw) 0%N)] in
  query (container k N) bh (after k bh nb bw (band_bound bw) ops) (spoilt nb bw) = Some ∅ /\
  scan (spec_map (nb * bw) ops) (band_bound bw) (spoilt nb bw) 0%N.
Proof.
  intros Hnb Hbw Hb Hcf ops.
  set (s := replicate (nb * bw) 0%N).
  assert (Hl : length s = nb * bw) by apply replicate_length.
  assert (Hsm : spec_map (nb * bw) ops = {[0%N := s]}).
  { unfold spec_map, ops. cbn [fold_left spec_step]. rewrite decide_True by done.
    by rewrite insert_empty. }
  assert (Hcl : clean (nb * bw) ops) by (split; [intros _; apply lookup_empty|done]).
  split.
  - destruct (exact_answer k bh nb bw (band_bound bw) ops (spoilt nb bw) Hcl)
      as (S & HS & Hin); [by apply spoilt_length|].
    rewrite HS. f_equal. apply set_eq. intros id. rewrite Hin, Hsm. split; [|set_solver].
    intros (s' & Hs' & _ & i & Hi & Hbh).
    apply lookup_singleton_Some in Hs' as [<- <-]. exfalso.
    apply Hcf in Hbh.
    + apply (f_equal (fun l => l !! 0)) in Hbh. unfold nth_band in Hbh.
      rewrite !lookup_take, !lookup_drop, Nat.add_0_r in Hbh by done.
      rewrite spoilt_lookup in Hbh by done. unfold s in Hbh.
      rewrite lookup_replicate_2 in Hbh by nia. discriminate.
    + unfold nth_band. rewrite take_length, drop_length, Hl. nia.
    + unfold nth_band. rewrite take_length, drop_length, spoilt_length by done. nia.
  - exists s. split; [rewrite Hsm; apply lookup_singleton|].
    assert (Hs : good64 (sim s (spoilt nb bw))
            (rnd64 (IZR (Z.of_nat (agreements s (spoilt nb bw))) / IZR (Z.of_nat (length s))))).
    { apply sim_good; [rewrite Hl; nia|by rewrite Hl]. }
    assert (Hr : good64 (band_bound bw)
            (rnd64 (IZR (Z.of_N (N.of_nat (bw - 1))) / IZR (Z.of_N (N.of_nat bw))))).
    { apply ratio64_good; [lia|]. split; [lia|]. nia. }
    apply (good_leb 53 1024 _ _ _ _ Hr Hs).
    right. f_equal. unfold s. rewrite spoilt_agreements, replicate_length, !nat_N_Z by done.
    assert (Hn : (0 < IZR (Z.of_nat nb))%R) by (apply IZR_lt; lia).
    assert (Hw : (0 < IZR (Z.of_nat bw))%R) by (apply IZR_lt; lia).
    rewrite !Nat2Z.inj_mul, !mult_IZR. field. lra.
Qed.
