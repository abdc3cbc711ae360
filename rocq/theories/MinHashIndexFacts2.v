(** Queries with similarities, bulk/sequential equivalence, band sizes, shrinking. *)
From stdpp Require Import base list gmap.
From Coq Require Import NArith Reals Psatz.
From Flocq Require Import Core BinarySingleNaN.
From Verif Require Import Base Par ParFacts Float FloatFacts F64Facts Similarity SimilarityFacts
  Container ContainerFacts MinHashIndex SpecIndex MinHashIndexFacts.
Local Open Scope nat_scope.

(** ** Generic list facts *)
Lemma mapM_total {A B} (f : A -> option B) (g : A -> B) l :
  (forall x, x ∈ l -> f x = Some (g x)) -> mapM f l = Some (g <$> l).
Proof.
  induction l as [|x l IH]; intros Hf; [done|]. simpl.
  rewrite Hf by (by left). simpl. rewrite IH by (intros; apply Hf; by right). done.
Qed.

Lemma omap_id_fmap {A B} (g : A -> option B) (l : list A) : omap Datatypes.id (g <$> l) = omap g l.
Proof. induction l as [|x l IH]; [done|]. cbn. destruct (g x); cbn; by rewrite <- IH. Qed.

Lemma max_by_unwrap_from_spec {A} (cmp : A -> A -> option comparison) (key : A -> R) acc l :
  (forall x y, x ∈ acc :: l -> y ∈ acc :: l -> cmp x y = Some (Rcompare (key x) (key y))) ->
  exists r, max_by_unwrap_from cmp acc l = Some r /\ r ∈ acc :: l /\
    forall y, y ∈ acc :: l -> (key y <= key r)%R.
Proof.
  revert acc. induction l as [|x l IH]; intros acc Hc; simpl.
  - exists acc. split; [done|]. split; [by left|].
    intros y ->%elem_of_list_singleton. lra.
  - rewrite Hc by (by repeat constructor).
    destruct (Rcompare_spec (key acc) (key x)) as [Hlt|Heq|Hgt].
    + destruct (IH x) as (r & -> & Hr & Hmax); [set_solver|].
      exists r. split; [done|]. split; [set_solver|]. intros y Hy.
      apply elem_of_cons in Hy as [->|Hy]; [|auto]. specialize (Hmax x ltac:(by left)). lra.
    + destruct (IH x) as (r & -> & Hr & Hmax); [set_solver|].
      exists r. split; [done|]. split; [set_solver|]. intros y Hy.
      apply elem_of_cons in Hy as [->|Hy]; [|auto]. specialize (Hmax x ltac:(by left)). lra.
    + destruct (IH acc) as (r & -> & Hr & Hmax); [set_solver|].
      exists r. split; [done|]. split; [set_solver|]. intros y Hy.
      apply elem_of_cons in Hy as [->|Hy]; [apply Hmax; by left|].
      apply elem_of_cons in Hy as [->|Hy]; [|apply Hmax; by right].
      specialize (Hmax acc ltac:(by left)). lra.
Qed.

Lemma max_by_unwrap_spec {A} (cmp : A -> A -> option comparison) (key : A -> R) l :
  (forall x y, x ∈ l -> y ∈ l -> cmp x y = Some (Rcompare (key x) (key y))) ->
  exists r, max_by_unwrap cmp l = Some r /\
    match r with
    | None => l = []
    | Some p => p ∈ l /\ forall y, y ∈ l -> (key y <= key p)%R
    end.
Proof.
  intros Hc. destruct l as [|x l]; simpl; [by exists None|].
  destruct (max_by_unwrap_from_spec cmp key x l Hc) as (r & -> & Hr & Hmax).
  exists (Some r). simpl. auto.
Qed.

Section Sim.
Context {T : Type} `{!EqDecision T}.
Implicit Types x y s q : list T.

Lemma sim_valid x y : f64_valid (sim x y) = true.
Proof. apply div_valid. Qed.

Lemma sim_good x y : 0 < length x -> (N.of_nat (length x) <= 2 ^ 53)%N ->
  good64 (sim x y) (rnd64 (IZR (Z.of_nat (agreements x y)) / IZR (Z.of_nat (length x)))).
Proof.
  intros Hn Hb. unfold sim.
  rewrite <- (nat_N_Z (agreements x y)), <- (nat_N_Z (length x)).
  pose proof (agreements_le x y). apply ratio64_good; lia.
Qed.

Lemma dist_good x y : 0 < length x -> (N.of_nat (length x) <= 2 ^ 53)%N ->
  good64 (dist x y)
    (rnd64 (1 - rnd64 (IZR (Z.of_nat (agreements x y)) / IZR (Z.of_nat (length x))))).
Proof.
  intros Hn Hb. unfold dist, sim.
  rewrite <- (nat_N_Z (agreements x y)), <- (nat_N_Z (length x)).
  pose proof (agreements_le x y). apply coratio64_good; lia.
Qed.

Lemma sim_refl x : 0 < length x -> (N.of_nat (length x) <= 2 ^ 53)%N -> sim x x = f64_one.
Proof.
  intros Hn Hb. apply (good64_inj _ _ 1%R); [lra| |apply one_good].
  pose proof (sim_good x x Hn Hb) as G. rewrite agreements_refl in G.
  rewrite <- nat_N_Z, ratio64_one in G by lia. exact G.
Qed.

Lemma sim_le_one x y : 0 < length x -> (N.of_nat (length x) <= 2 ^ 53)%N ->
  f64_gt (sim x y) f64_one = false.
Proof.
  intros Hn Hb. apply not_true_iff_false. intros Hgt. unfold f64_gt in Hgt.
  rewrite (good_ltb 53 1024 _ _ _ _ one_good (sim_good x y Hn Hb)) in Hgt.
  pose proof (agreements_le x y).
  pose proof (ratio64_bounds (N.of_nat (agreements x y)) (N.of_nat (length x))) as Hr.
  rewrite !nat_N_Z in Hr. apply Rlt_not_le in Hgt. apply Hgt, Hr; lia.
Qed.

Lemma sim_nil x y : length x = 0 -> sim x y = S754_nan.
Proof. intros Hl. destruct x; [|done]. reflexivity. Qed.

Lemma dist_lt q x y : length x = length q -> length y = length q -> 0 < length q ->
  (N.of_nat (length q) < 2 ^ 51)%N ->
  f64_lt (dist q x) (dist q y) = true <-> agreements q y < agreements q x.
Proof.
  intros Hx Hy Hn Hb. unfold dist, sim.
  pose proof (agreements_le q x). pose proof (agreements_le q y).
  rewrite coratio64_lt by lia. lia.
Qed.

Lemma sim_lt q x y : length x = length q -> length y = length q -> 0 < length q ->
  (N.of_nat (length q) < 2 ^ 51)%N ->
  f64_lt (sim q x) (sim q y) = true <-> agreements q x < agreements q y.
Proof.
  intros Hx Hy Hn Hb. unfold sim.
  pose proof (agreements_le q x). pose proof (agreements_le q y).
  rewrite ratio64_lt by lia. lia.
Qed.

Lemma share_band_nth bw i s q : share_band bw i s q -> nth_band bw i s = nth_band bw i q.
Proof.
  intros Hs. unfold nth_band. apply list_eq. intros j.
  destruct (decide (j < bw)) as [Hj|Hj].
  - rewrite !lookup_take, !lookup_drop by done. apply Hs. nia.
  - by rewrite !lookup_take_ge by lia.
Qed.

Lemma nth_band_share bw i s q : nth_band bw i s = nth_band bw i q -> share_band bw i s q.
Proof.
  intros Heq j Hj. unfold nth_band in Heq.
  assert (Hl : take bw (drop (i * bw) s) !! (j - i * bw) = take bw (drop (i * bw) q) !! (j - i * bw))
    by (by rewrite Heq).
  rewrite !lookup_take, !lookup_drop in Hl by nia.
  by replace (i * bw + (j - i * bw)) with j in Hl by lia.
Qed.

Lemma nth_band_length nb bw i s : i < nb -> length s = nb * bw -> length (nth_band bw i s) = bw.
Proof. intros Hi Hs. unfold nth_band. rewrite take_length, drop_length. nia. Qed.
End Sim.

Section Facts.
Context {T : Type} `{!EqDecision T}.
Context {Id : Type} `{Countable Id}.
Context (K : id_container Id) (L : container_laws K).
Context (bh : list T -> N) (nb bw : nat) (th : f64).

Notation band := (band (carrier K)).
Notation index := (index (carrier K) Id T).
Notation smap := (gmap Id (list T)).
Implicit Types (b : band) (m : index) (sm : smap) (s q : list T).

Notation Inv := (Inv K bh nb bw th).
Notation exact := (exact K bh bw).
Notation bkey i s := (bh (nth_band bw i s)).

Lemma clean_well_sized_step sm o :
  clean_op (nb * bw) sm o -> well_sized (nb * bw) sm ->
  well_sized (nb * bw) (spec_step (nb * bw) sm o).
Proof.
  intros Hc Hw x t. destruct o; simpl in *.
  - destruct (decide _); [|apply Hw]. destruct (decide (x = id)) as [->|].
    + rewrite lookup_insert. congruence.
    + rewrite lookup_insert_ne by done. apply Hw.
  - destruct Hc as (_ & _ & Hl). destruct (bulk_rejected _ _ _); [apply Hw|].
    intros [Hp|[Hs _]]%insert_pairs_lookup; [|by eapply Hw].
    apply elem_of_zip_r in Hp. rewrite Forall_forall in Hl. auto.
  - destruct Hc as (_ & _ & Hl). destruct (pairs_too_short _ _); [apply Hw|].
    intros [Hp|[Hs _]]%insert_pairs_lookup; [|by eapply Hw].
    rewrite Forall_forall in Hl. by apply Hl in Hp.
  - intros [_ Hs]%lookup_delete_Some. by eapply Hw.
  - intros [Hs _]%map_filter_lookup_Some. by eapply Hw.
  - done.
  - apply Hw.
  - apply Hw.
Qed.

Lemma clean_well_sized_from sm ops :
  clean_from (nb * bw) sm ops -> well_sized (nb * bw) sm ->
  well_sized (nb * bw) (fold_left (spec_step (nb * bw)) ops sm).
Proof.
  revert sm. induction ops as [|o ops IH]; intros sm Hc Hw; simpl; [done|].
  destruct Hc. apply IH; [done|]. by apply clean_well_sized_step.
Qed.

Lemma clean_well_sized (ops : list (op Id T)) :
  clean (nb * bw) ops -> well_sized (nb * bw) (spec_map (nb * bw) ops).
Proof. intros Hc. apply clean_well_sized_from; [done|]. by intros x s. Qed.

(** ** Recall and exactness *)
Lemma bands_lookup m sm i : Inv m sm -> i < nb -> exists b, bands m !! i = Some b.
Proof. intros HI Hi. apply lookup_lt_is_Some_2. by rewrite (inv_len _ _ _ _ _ _ _ HI). Qed.

Lemma query_recall m sm q :
  Inv m sm -> well_sized (nb * bw) sm -> length q = nb * bw ->
  exists S, query K bh m q = Some S /\
    forall x s i, sm !! x = Some s -> f64_ge (sim s q) th = true -> i < nb ->
      share_band bw i s q -> x ∈ S.
Proof.
  intros HI Hw Hq. destruct (query_exact_general K bh nb bw th m sm q HI Hw Hq) as (S & HS & Hex).
  exists S. split; [done|]. intros x s i Hs Hge Hi Hsh. apply Hex. split; [|eauto].
  destruct (bands_lookup m sm i HI Hi) as [b Hb].
  exists i, b. split; [done|]. destruct (inv_band _ _ _ _ _ _ _ HI _ _ Hb) as [_ Hcov].
  rewrite <- (share_band_nth _ _ _ _ Hsh). by apply Hcov.
Qed.

Lemma in_bands_exact m sm q x :
  Inv m sm -> (forall i b, bands m !! i = Some b -> exact i sm b) ->
  (exists i b, bands m !! i = Some b /\ in_band K b (bkey i q) x) <->
  candidate nb bw bh sm q x.
Proof.
  intros HI Hex. split.
  - intros (i & b & Hi & Hin). destruct (Hex i b Hi) as [Hex1 _].
    apply Hex1 in Hin as (s & Hs & Hk). exists s. split; [done|]. exists i. split; [|done].
    apply lookup_lt_Some in Hi. by rewrite (inv_len _ _ _ _ _ _ _ HI) in Hi.
  - intros (s & Hs & i & Hi & Hk). destruct (bands_lookup m sm i HI Hi) as [b Hb].
    exists i, b. split; [done|]. destruct (Hex i b Hb) as [Hex1 _]. apply Hex1. eauto.
Qed.

Lemma query_exact m sm q :
  Inv m sm -> (forall i b, bands m !! i = Some b -> exact i sm b) ->
  well_sized (nb * bw) sm -> length q = nb * bw ->
  exists S, query K bh m q = Some S /\
    forall x, x ∈ S <-> expected_answer nb bw bh th sm q x.
Proof.
  intros HI Hex Hw Hq. destruct (query_exact_general K bh nb bw th m sm q HI Hw Hq) as (S & HS & He).
  exists S. split; [done|]. intros x. rewrite He, (in_bands_exact m sm) by done. split.
  - intros [(s & Hs & Hi) (s' & Hs' & Hge)]. rewrite Hs in Hs'. injection Hs' as <-.
    exists s. auto.
  - intros (s & Hs & Hge & Hi). split; exists s; auto.
Qed.

Lemma candidates_exact m sm q :
  Inv m sm -> (forall i b, bands m !! i = Some b -> exact i sm b) -> nb * bw <= length q ->
  exists cs, candidates K bh m q = Some cs /\ forall x, x ∈ cs <-> candidate nb bw bh sm q x.
Proof.
  intros HI Hex Hq. destruct (candidates_spec K bh nb bw th m sm q HI Hq) as (cs & Hcs & He).
  exists cs. split; [done|]. intros x. by rewrite He, (in_bands_exact m sm).
Qed.

Lemma query_wrong_length m sm q : Inv m sm -> length q ≠ nb * bw -> query K bh m q = None.
Proof.
  intros HI Hq. unfold query. rewrite (inv_n _ _ _ _ _ _ _ HI). by rewrite decide_False by done.
Qed.

(** A stored signature of another length poisons the queries that hit it. *)
Lemma query_poisoned m sm q x s i :
  Inv m sm -> sm !! x = Some s -> length s ≠ length q -> i < nb -> share_band bw i s q ->
  query K bh m q = None.
Proof.
  intros HI Hs Hl Hi Hsh. unfold query. destruct (decide _) as [Hn|]; [|done].
  rewrite (inv_n _ _ _ _ _ _ _ HI) in Hn.
  destruct (candidates_spec K bh nb bw th m sm q HI) as (cs & -> & Hcs); [lia|]. simpl.
  destruct (filter_res _ _) as [l|] eqn:Ef; [|done]. exfalso.
  assert (Hx : x ∈ elements cs).
  { apply elem_of_elements, Hcs. destruct (bands_lookup m sm i HI Hi) as [b Hb].
    exists i, b. split; [done|]. destruct (inv_band _ _ _ _ _ _ _ HI _ _ Hb) as [_ Hcov].
    rewrite <- (share_band_nth _ _ _ _ Hsh). by apply Hcov. }
  assert (Hp : query_keep K m q x = None).
  { unfold query_keep. rewrite (inv_sigs _ _ _ _ _ _ _ HI), Hs, similarity_panic by done. done. }
  clear -Ef Hx Hp. revert l Ef. induction (elements cs) as [|y l0 IH]; intros l Ef.
  - by apply elem_of_nil in Hx.
  - simpl in Ef. apply elem_of_cons in Hx as [<-|Hx].
    + by rewrite Hp in Ef.
    + destruct (query_keep K m q y); [|done]. simpl in Ef.
      destruct (filter_res _ l0) as [l1|]; [|done]. by eapply IH.
Qed.

(** ** query_one *)
Definition one_item sm q (x : Id) : option (Id * f64) :=
  match sm !! x with
  | Some s => if f64_gt (sim s q) th then Some (x, sim s q) else None
  | None => None
  end.

Lemma query_one_spec m sm q order cs :
  f64_valid th = true ->
  Inv m sm -> well_sized (nb * bw) sm -> length q = nb * bw -> is_order order ->
  candidates K bh m q = Some cs ->
  exists r, query_one K bh order m q = Some r /\
    match r with
    | Some (x, v) =>
        exists s, sm !! x = Some s /\ x ∈ cs /\ v = sim s q /\ f64_gt v th = true /\
          forall x' s', x' ∈ cs -> sm !! x' = Some s' -> f64_gt (sim s' q) v = false
    | None => forall x' s', x' ∈ cs -> sm !! x' = Some s' -> f64_gt (sim s' q) th = false
    end.
Proof.
  intros Hth HI Hw Hq Hord Hcs. unfold query_one.
  rewrite (inv_n _ _ _ _ _ _ _ HI), decide_True, Hcs by done. simpl.
  assert (Hitem : forall x, query_one_item K m q x = Some (one_item sm q x)).
  { intros x. unfold query_one_item, one_item.
    rewrite (inv_sigs _ _ _ _ _ _ _ HI), (inv_th _ _ _ _ _ _ _ HI).
    destruct (sm !! x) as [s|] eqn:Es; [|done].
    rewrite similarity_sim by (rewrite (Hw _ _ Es); done). done. }
  rewrite (mapM_total _ (one_item sm q)) by (intros; apply Hitem). simpl.
  rewrite omap_id_fmap.
  assert (Hmem : forall x v, (x, v) ∈ omap (one_item sm q) (order cs) <->
     x ∈ cs /\ exists s, sm !! x = Some s /\ v = sim s q /\ f64_gt v th = true).
  { intros x v. rewrite elem_of_list_omap. split.
    - intros (y & Hy & Hv). rewrite (Hord cs), elem_of_elements in Hy.
      unfold one_item in Hv. destruct (sm !! y) as [s|] eqn:Es; [|done].
      destruct (f64_gt (sim s q) th) eqn:Eg; [|done]. injection Hv as <- <-. eauto 6.
    - intros (Hx & s & Hs & -> & Hg). exists x.
      rewrite (Hord cs), elem_of_elements. split; [done|].
      unfold one_item. by rewrite Hs, Hg. }
  assert (Hok : forall p, p ∈ omap (one_item sm q) (order cs) ->
     f64_valid p.2 = true /\ f64_is_nan p.2 = false).
  { intros [x v] (_ & s & _ & -> & Hg)%Hmem. simpl. split; [apply sim_valid|].
    by apply gt_not_nan in Hg as []. }
  destruct (max_by_unwrap_spec (fun x y : Id * f64 => f64_partial_cmp x.2 y.2)
              (fun p => key64 p.2) (omap (one_item sm q) (order cs))) as (r & Hr & Hspec).
  { intros p p' Hp Hp'. apply Hok in Hp as [], Hp' as []. by apply cmp_key64. }
  exists r. split; [done|]. destruct r as [[x v]|].
  - destruct Hspec as [Hin Hmax]. pose proof (Hok _ Hin) as [Hvv Hvn]. simpl in Hvv, Hvn.
    apply Hmem in Hin as (Hx & s & Hs & -> & Hg).
    exists s. split; [done|]. split; [done|]. split; [done|]. split; [done|].
    intros x' s' Hx' Hs'. apply not_true_iff_false. intros Hgt.
    destruct (gt_not_nan _ _ Hgt) as [Hn' _].
    destruct (gt_not_nan _ _ Hg) as [_ Hnt].
    assert (Hgt' : (key64 (sim s q) < key64 (sim s' q))%R)
      by (apply gt_key in Hgt; auto using sim_valid).
    assert (Hin' : (x', sim s' q) ∈ omap (one_item sm q) (order cs) \/ f64_gt (sim s' q) th = false).
    { destruct (f64_gt (sim s' q) th) eqn:E; [left|by right]. apply Hmem. eauto 6. }
    destruct Hin' as [Hin'|Hf].
    + specialize (Hmax _ Hin'). simpl in Hmax. lra.
    + apply gt_key in Hg; auto using sim_valid. apply not_true_iff_false in Hf. apply Hf.
      apply gt_key; auto using sim_valid. lra.
  - intros x' s' Hx' Hs'. apply not_true_iff_false. intros Hg.
    assert ((x', sim s' q) ∈ omap (one_item sm q) (order cs)) as Hin by (apply Hmem; eauto 6).
    rewrite Hspec in Hin. by apply elem_of_nil in Hin.
Qed.
End Facts.
