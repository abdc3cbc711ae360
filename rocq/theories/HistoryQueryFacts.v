(** The queries with similarities after any history. *)
From stdpp Require Import base list gmap.
From Coq Require Import NArith.
From Verif Require Import Base Par ParFacts Float F64Facts Similarity SimilarityFacts
  Container ContainerFacts MinHashIndex SpecIndex SpecHistory SpecHistoryQuery
  MinHashIndexFacts MinHashIndexFacts2 MinHashIndexFacts3 MinHashIndexThms HistoryFacts.

(** ** Any index whose map is [sm] *)
Section Live.
Context {T : Type} `{!EqDecision T}.
Context {Id : Type} `{Countable Id}.
Context (K : id_container Id).
Context (bh : list T -> N) (nb bw : nat) (th : f64).
Notation index := (index (carrier K) Id T).
Notation smap := (gmap Id (list T)).
Implicit Types (m : index) (sm : smap) (s q : list T) (cs : gset Id).
Notation Inv := (Inv K bh nb bw th).

Lemma mapM_dead {A B} (f : A -> option B) l x : x ∈ l -> f x = None -> mapM f l = None.
Proof.
  intros Hx Hf. apply mapM_None, Exists_exists. eauto.
Qed.

Lemma similarity_dead m sm q cs order sort x :
  Inv m sm -> candidates K bh m q = Some cs -> is_order order ->
  x ∈ cs -> sm !! x = None ->
  query_owned_return_similarity K bh order sort m q = None.
Proof.
  intros HI Hcs Hord Hx Hd. unfold query_owned_return_similarity. rewrite Hcs. simpl.
  rewrite (mapM_dead _ _ x); [done|by rewrite (Hord cs), elem_of_elements|].
  unfold query_sim_item. by rewrite (inv_sigs _ _ _ _ _ _ _ HI), Hd.
Qed.

Lemma top_k_dead m sm q cs k order sort x :
  Inv m sm -> candidates K bh m q = Some cs -> is_order order ->
  x ∈ cs -> sm !! x = None ->
  query_top_k K bh order sort m q k = None.
Proof.
  intros HI Hcs Hord Hx Hd. unfold query_top_k. rewrite Hcs. simpl.
  rewrite (mapM_dead _ _ x); [done|by rewrite (Hord cs), elem_of_elements|].
  unfold query_dist_item. by rewrite (inv_sigs _ _ _ _ _ _ _ HI), Hd.
Qed.

Lemma similarity_live m sm q cs order sort :
  Inv m sm -> candidates K bh m q = Some cs ->
  (forall x, x ∈ cs -> sm !! x <> None) ->
  well_sized (nb * bw) sm -> length q = nb * bw -> is_order order -> is_sort f64_ge sort ->
  exists l, query_owned_return_similarity K bh order sort m q = Some l /\
    NoDup l.*1 /\
    (forall x v, (x, v) ∈ l <->
       x ∈ cs /\ exists s, sm !! x = Some s /\ v = sim s q /\ f64_ge v th = true) /\
    forall i j a c, i < j -> l !! i = Some a -> l !! j = Some c -> f64_ge a.2 c.2 = true.
Proof.
  intros HI Hcs Hlive Hw Hq Hord Hsort. unfold query_owned_return_similarity.
  rewrite Hcs. simpl.
  assert (Hitem : forall x, x ∈ order cs -> query_sim_item K m q x = Some (sim_item th sm q x)).
  { intros x Hx. rewrite (Hord cs), elem_of_elements in Hx.
    destruct (sm !! x) as [s|] eqn:Hs; [|by destruct (Hlive x Hx)].
    unfold query_sim_item, sim_item.
    rewrite (inv_sigs _ _ _ _ _ _ _ HI), (inv_th _ _ _ _ _ _ _ HI), Hs. simpl.
    rewrite similarity_sim by (rewrite (Hw _ _ Hs); done). done. }
  rewrite (mapM_total _ (sim_item th sm q)) by done. simpl. rewrite omap_id_fmap.
  set (l0 := omap (sim_item th sm q) (order cs)).
  assert (Hmem : forall x v, (x, v) ∈ l0 <->
     x ∈ cs /\ exists s, sm !! x = Some s /\ v = sim s q /\ f64_ge v th = true).
  { intros x v. unfold l0. rewrite elem_of_list_omap. split.
    - intros (y & Hy & Hv). rewrite (Hord cs), elem_of_elements in Hy.
      unfold sim_item in Hv. destruct (sm !! y) as [s|] eqn:Es; [|done].
      destruct (f64_ge (sim s q) th) eqn:Eg; [|done]. injection Hv as <- <-. eauto 6.
    - intros (Hx & s & Hs & -> & Hg). exists x.
      rewrite (Hord cs), elem_of_elements. split; [done|].
      unfold sim_item. by rewrite Hs, Hg. }
  destruct (sort_by_f64_ok f64_ge sort l0 Hsort) as (-> & Hperm & Hsorted).
  { apply Forall_forall. intros [x v] (_ & s & _ & -> & Hg)%Hmem. simpl.
    by apply ge_not_nan in Hg as []. }
  exists (sort l0). split; [done|]. split; [|split; [|done]].
  - rewrite Hperm. apply omap_fst_NoDup.
    + intros x p. unfold sim_item. destruct (sm !! x); [|done].
      destruct (f64_ge _ _); [|done]. by intros [= <-].
    + rewrite (Hord cs). apply NoDup_elements.
  - intros x v. by rewrite Hperm, Hmem.
Qed.

Lemma top_k_live m sm q cs k order sort :
  Inv m sm -> candidates K bh m q = Some cs ->
  (forall x, x ∈ cs -> sm !! x <> None) ->
  well_sized (nb * bw) sm -> length q = nb * bw ->
  0 < length q -> (N.of_nat (length q) < 2 ^ 51)%N ->
  is_order order -> is_sort (fun a c => f64_ge c a) sort ->
  exists l, query_top_k K bh order sort m q k = Some l /\
    length l = Nat.min k (size cs) /\
    NoDup l.*1 /\
    (forall x d, (x, d) ∈ l -> x ∈ cs /\ exists s, sm !! x = Some s /\ d = dist q s) /\
    (forall i j a c, i < j -> l !! i = Some a -> l !! j = Some c -> f64_ge c.2 a.2 = true) /\
    (forall x d s x' s', (x, d) ∈ l -> sm !! x = Some s ->
       x' ∈ cs -> x' ∉ l.*1 -> sm !! x' = Some s' -> agreements q s' <= agreements q s).
Proof.
  intros HI Hcs Hlive' Hw Hq Hpos Hb Hord Hsort. unfold query_top_k. rewrite Hcs. simpl.
  assert (Hlive : forall x, x ∈ order cs -> exists s, sm !! x = Some s).
  { intros x Hx. rewrite (Hord cs), elem_of_elements in Hx.
    destruct (sm !! x) as [s|] eqn:Hs; [eauto|by destruct (Hlive' x Hx)]. }
  assert (Hitem : forall x, x ∈ order cs -> query_dist_item K m q x = Some (dist_item sm q x)).
  { intros x Hx. destruct (Hlive x Hx) as [s Hs]. unfold query_dist_item, dist_item.
    rewrite (inv_sigs _ _ _ _ _ _ _ HI), Hs. simpl. unfold compute_minhash_distance.
    rewrite similarity_sim by (rewrite (Hw _ _ Hs); done). done. }
  rewrite (mapM_total _ (dist_item sm q)) by done. simpl.
  set (l0 := dist_item sm q <$> order cs).
  assert (Hmem : forall x d, (x, d) ∈ l0 <->
     x ∈ cs /\ exists s, sm !! x = Some s /\ d = dist q s).
  { intros x d. unfold l0. rewrite elem_of_list_fmap. split.
    - intros (y & Heq & Hy). destruct (Hlive y Hy) as [s Hs].
      rewrite (Hord cs), elem_of_elements in Hy. unfold dist_item in Heq. rewrite Hs in Heq.
      injection Heq as -> ->. eauto.
    - intros (Hx & s & Hs & ->). exists x. unfold dist_item. rewrite Hs. split; [done|].
      by rewrite (Hord cs), elem_of_elements. }
  assert (Hd : forall s, length s = nb * bw -> f64_is_nan (dist q s) = false).
  { intros s Hs. eapply good64_not_nan, dist_good; lia. }
  destruct (sort_by_f64_ok (fun a c => f64_ge c a) sort l0 Hsort) as (-> & Hperm & Hsorted).
  { apply Forall_forall. intros [x d] (_ & s & Hs & ->)%Hmem. simpl. apply Hd. by eapply Hw. }
  simpl. rewrite slice_Some by lia. rewrite Nat.sub_0_r, drop_0.
  set (l := sort l0) in *.
  assert (Hnd : NoDup l.*1).
  { rewrite Hperm. unfold l0. rewrite <- list_fmap_compose.
    replace (fst ∘ dist_item sm q <$> order cs) with (order cs).
    - rewrite (Hord cs). apply NoDup_elements.
    - symmetry. etransitivity; [|apply list_fmap_id]. by apply list_fmap_ext. }
  assert (Hlen : length l = size cs).
  { rewrite Hperm. unfold l0. rewrite fmap_length, (Hord cs). done. }
  exists (take (Nat.min (length l) k) l). split; [done|].
  split; [rewrite take_length; lia|].
  assert (Hsub : forall p, p ∈ take (Nat.min (length l) k) l -> p ∈ l).
  { intros p Hp. eapply elem_of_submseteq; [exact Hp|]. apply submseteq_take. }
  split.
  { rewrite fmap_take. clear -Hnd. rewrite <- (take_drop (Nat.min (length l) k) l.*1) in Hnd.
    by apply NoDup_app in Hnd as [? _]. }
  split.
  { intros x d Hp%Hsub. rewrite Hperm in Hp. by apply Hmem. }
  split.
  { intros i j a b' Hij Ha Hb'.
    apply lookup_take_Some in Ha as [Ha _]. apply lookup_take_Some in Hb' as [Hb' _]. eauto. }
  intros x d s x' s' Hp Hs Hx' Hni Hs'.
  apply elem_of_list_lookup in Hp as [i Hi]. apply lookup_take_Some in Hi as [Hi Hik].
  assert (Hp' : (x', dist q s') ∈ l) by (rewrite Hperm; apply Hmem; eauto).
  apply elem_of_list_lookup in Hp' as [j Hj].
  assert (Hij : i < j).
  { destruct (decide (i < j)) as [|Hge]; [done|]. exfalso. apply Hni.
    apply elem_of_list_fmap. exists (x', dist q s'). split; [done|].
    apply elem_of_list_lookup. exists j. apply lookup_take_Some. split; [done|]. lia. }
  specialize (Hsorted _ _ _ _ Hij Hi Hj). simpl in Hsorted.
  assert ((x, d) ∈ l0) as Hin0.
  { rewrite <- Hperm. eapply elem_of_list_lookup_2; eauto. }
  apply Hmem in Hin0 as (_ & s1 & Hs1 & ->). rewrite Hs in Hs1. injection Hs1 as <-.
  destruct (decide (agreements q s' <= agreements q s)) as [|Hgt]; [done|]. exfalso.
  assert (Hlt : f64_lt (dist q s') (dist q s) = true).
  { apply dist_lt; try done; try lia; rewrite Hq; by eapply Hw. }
  apply ge_not_lt in Hsorted; [congruence|apply one_sub_valid..].
Qed.
End Live.

(** ** After a history *)
Section History.
Context {T : Type} `{!EqDecision T}.
Context {Id : Type} `{Countable Id}.
Context (k : container_kind) (bh : list T -> N) (nb bw : nat) (th : f64).
Notation K := (container k Id).
Notation smap := (gmap Id (list T)).
Implicit Types (ops : list (op Id T)) (q : list T).

Lemma history_candidates ops q :
  whole (nb * bw) ops -> length q = nb * bw ->
  exists cs, candidates K bh (after k bh nb bw th ops) q = Some cs /\
    forall x, x ∈ cs <-> met k bh nb bw ops q x.
Proof.
  intros Hw Hq. pose proof (after_inv k bh nb bw th ops) as HI.
  destruct (candidates_spec K bh nb bw th _ _ q HI) as (cs & Hcs & Hin); [lia|].
  exists cs. split; [done|]. intros x. rewrite Hin. unfold met. split.
  - intros (i & b & Hi & Hb). exists i. split.
    + rewrite <- (inv_len _ _ _ _ _ _ _ HI). by eapply lookup_lt_Some.
    + rewrite <- (run_tallies k bh nb bw th ops Hw i b Hi). by apply tally_pos.
  - intros (i & Hi & Hp).
    destruct (lookup_lt_is_Some_2 (bands (after k bh nb bw th ops)) i) as [b Hb].
    { by rewrite (inv_len _ _ _ _ _ _ _ HI). }
    exists i, b. split; [done|]. apply tally_pos. by rewrite (run_tallies k bh nb bw th ops Hw i b Hb).
Qed.

Lemma history_similarity_panics ops q order sort x :
  whole (nb * bw) ops -> length q = nb * bw -> is_order order ->
  ghost k bh nb bw ops q x ->
  query_owned_return_similarity K bh order sort (after k bh nb bw th ops) q = None.
Proof.
  intros Hw Hq Hord [Hm Hd]. destruct (history_candidates ops q Hw Hq) as (cs & Hcs & Hin).
  eapply similarity_dead; [apply after_inv|done|done|by apply Hin|done].
Qed.

Lemma history_top_k_panics ops q j order sort x :
  whole (nb * bw) ops -> length q = nb * bw -> is_order order ->
  ghost k bh nb bw ops q x ->
  query_top_k K bh order sort (after k bh nb bw th ops) q j = None.
Proof.
  intros Hw Hq Hord [Hm Hd]. destruct (history_candidates ops q Hw Hq) as (cs & Hcs & Hin).
  eapply top_k_dead; [apply after_inv|done|done|by apply Hin|done].
Qed.

Lemma history_similarity ops q order sort :
  whole (nb * bw) ops -> well_sized (nb * bw) (spec_map (nb * bw) ops) -> length q = nb * bw ->
  is_order order -> is_sort f64_ge sort ->
  (forall x, ~ ghost k bh nb bw ops q x) ->
  exists l, query_owned_return_similarity K bh order sort (after k bh nb bw th ops) q = Some l /\
    NoDup l.*1 /\
    (forall x v, (x, v) ∈ l <-> history_answer k bh nb bw th ops q x /\
       exists s, spec_map (nb * bw) ops !! x = Some s /\ v = sim s q) /\
    forall i j a c, i < j -> l !! i = Some a -> l !! j = Some c -> f64_ge a.2 c.2 = true.
Proof.
  intros Hw Hs Hq Hord Hsort Hg. destruct (history_candidates ops q Hw Hq) as (cs & Hcs & Hin).
  destruct (similarity_live K bh nb bw th _ (spec_map (nb * bw) ops) q cs order sort
    (after_inv k bh nb bw th ops) Hcs) as (l & Hl & Hn & Hmem & Hsd); try done.
  { intros x Hx Hd. apply (Hg x). split; [by apply Hin|done]. }
  exists l. split; [done|]. split; [done|]. split; [|done].
  intros x v. rewrite Hmem, Hin. unfold history_answer, met. split.
  - intros (Hm & s & Hsx & -> & Hge). eauto 8.
  - intros [(s & Hsx & Hge & Hm) (s' & Hsx' & ->)]. rewrite Hsx in Hsx'. injection Hsx' as <-. eauto 8.
Qed.

Lemma history_top_k ops q j order sort :
  whole (nb * bw) ops -> well_sized (nb * bw) (spec_map (nb * bw) ops) -> length q = nb * bw ->
  0 < length q -> (N.of_nat (length q) < 2 ^ 51)%N ->
  is_order order -> is_sort (fun a c => f64_ge c a) sort ->
  (forall x, ~ ghost k bh nb bw ops q x) ->
  exists (cs : gset Id) l, query_top_k K bh order sort (after k bh nb bw th ops) q j = Some l /\
    (forall x, x ∈ cs <-> met k bh nb bw ops q x) /\
    length l = Nat.min j (size cs) /\
    NoDup l.*1 /\
    (forall x d, (x, d) ∈ l -> x ∈ cs /\
       exists s, spec_map (nb * bw) ops !! x = Some s /\ d = dist q s) /\
    (forall i i' a c, i < i' -> l !! i = Some a -> l !! i' = Some c -> f64_ge c.2 a.2 = true) /\
    (forall x d s x' s', (x, d) ∈ l -> spec_map (nb * bw) ops !! x = Some s ->
       x' ∈ cs -> x' ∉ l.*1 -> spec_map (nb * bw) ops !! x' = Some s' ->
       agreements q s' <= agreements q s).
Proof.
  intros Hw Hs Hq Hp Hb Hord Hsort Hg. destruct (history_candidates ops q Hw Hq) as (cs & Hcs & Hin).
  destruct (top_k_live K bh nb bw th _ (spec_map (nb * bw) ops) q cs j order sort
    (after_inv k bh nb bw th ops) Hcs) as (l & Hl & Hrest); try done.
  { intros x Hx Hd. apply (Hg x). split; [by apply Hin|done]. }
  exists cs, l. split; [done|]. split; [done|]. exact Hrest.
Qed.

Lemma history_bulk_similarity ops qs order sort sched :
  whole (nb * bw) ops -> well_sized (nb * bw) (spec_map (nb * bw) ops) ->
  Forall (fun q => length q = nb * bw) qs -> is_order order -> is_sort f64_ge sort ->
  par_bulk_query_return_similarity K bh order sort sched (after k bh nb bw th ops) qs = None <->
  exists q x, q ∈ qs /\ ghost k bh nb bw ops q x.
Proof.
  intros Hw Hs Hqs Hord Hsort. unfold par_bulk_query_return_similarity.
  rewrite par_map_mapM. rewrite Forall_forall in Hqs. split.
  - intros E. apply mapM_None in E. apply Exists_exists in E as (q & Hq & Hn).
    exists q. destruct (history_candidates ops q Hw (Hqs q Hq)) as (cs & Hcs & Hin).
    destruct (decide (set_Exists (fun x => spec_map (nb * bw) ops !! x = None) cs))
      as [(x & Hx & Hd)|Hne].
    + exists x. split; [done|]. split; [by apply Hin|done].
    + exfalso. destruct (history_similarity ops q order sort) as (l & Hl & _); auto.
      * intros x [Hm Hd]. apply Hne. exists x. split; [by apply Hin|done].
      * unfold query_owned_return_similarity in *. congruence.
  - intros (q & x & Hq & Hg). eapply mapM_dead; [exact Hq|].
    eapply history_similarity_panics; eauto.
Qed.

Lemma history_query_one ops q order :
  f64_valid th = true ->
  whole (nb * bw) ops -> well_sized (nb * bw) (spec_map (nb * bw) ops) -> length q = nb * bw ->
  is_order order ->
  exists r, query_one K bh order (after k bh nb bw th ops) q = Some r /\
    match r with
    | Some (x, v) =>
        met k bh nb bw ops q x /\
        exists s, spec_map (nb * bw) ops !! x = Some s /\ v = sim s q /\ f64_gt v th = true /\
          forall x' s', met k bh nb bw ops q x' -> spec_map (nb * bw) ops !! x' = Some s' ->
            f64_gt (sim s' q) v = false
    | None => forall x' s', met k bh nb bw ops q x' -> spec_map (nb * bw) ops !! x' = Some s' ->
        f64_gt (sim s' q) th = false
    end.
Proof.
  intros Ht Hw Hs Hq Hord. destruct (history_candidates ops q Hw Hq) as (cs & Hcs & Hin).
  destruct (query_one_spec K bh nb bw th _ (spec_map (nb * bw) ops) q order cs Ht
    (after_inv k bh nb bw th ops) Hs Hq Hord Hcs) as (r & Hr & Hspec).
  exists r. split; [done|]. destruct r as [[x v]|].
  - destruct Hspec as (s & Hsx & Hx & -> & Hg & Hmax). split; [by apply Hin|].
    exists s. split; [done|]. split; [done|]. split; [done|].
    intros x' s' Hm. apply Hmax. by apply Hin.
  - intros x' s' Hm. apply Hspec. by apply Hin.
Qed.
End History.

(** ** Histories without ghosts *)
Section NoGhost.
Context {T : Type} `{!EqDecision T}.
Context {Id : Type} `{Countable Id}.
Context (bh : list T -> N) (nb bw : nat).
Notation smap := (gmap Id (list T)).
Implicit Types (ops : list (op Id T)) (q : list T).

(** With sets, a mark belongs to the signature in the map. *)
Lemma set_marks_from n i key (x : Id) (sm : smap) c ops :
  (0 < c -> exists s, sm !! x = Some s /\ bh (nth_band bw i s) = key) ->
  same_again_from n sm ops ->
  0 < marks_from KHashSet bh n bw i key x sm c ops ->
  exists s, fold_left (spec_step n) ops sm !! x = Some s /\ bh (nth_band bw i s) = key.
Proof.
  revert sm c. induction ops as [|o ops IH]; intros sm c Hc Hsa Hp; [by apply Hc|].
  destruct Hsa as [Ho Hsa]. simpl in *. eapply IH; [|exact Hsa|exact Hp].
  clear IH Hsa Hp. destruct o; simpl in *; try done.
  - destruct (decide (length sig = n)) as [Hl|]; [|done]. unfold note. simpl.
    destruct (decide (id = x /\ bh (nth_band bw i sig) = key)) as [[-> <-]|Hne]; simpl.
    + intros _. exists sig. by rewrite lookup_insert.
    + intros (s & Hs & Hk)%Hc. destruct (decide (id = x)) as [->|].
      * destruct (Ho Hl) as [?|Hsame]; [congruence|]. rewrite Hs in Hsame. injection Hsame as ->.
        naive_solver.
      * rewrite lookup_insert_ne by done. eauto.
  - destruct (sm !! id) as [s|] eqn:E.
    + unfold forget. simpl. destruct (decide (id = x /\ bh (nth_band bw i s) = key)) as [_|Hne]; simpl; [lia|].
      intros (s' & Hs & Hk)%Hc. destruct (decide (id = x)) as [->|].
      * rewrite E in Hs. injection Hs as ->. naive_solver.
      * rewrite lookup_delete_ne by done. eauto.
    + intros (s' & Hs & Hk)%Hc. rewrite lookup_delete_ne by congruence. eauto.
  - lia.
Qed.

Lemma set_same_again ops q x :
  same_again (nb * bw) ops -> ~ ghost KHashSet bh nb bw ops q x.
Proof.
  intros Hsa [(i & Hi & Hp) Hd]. unfold marks in Hp.
  apply set_marks_from in Hp as (s & Hs & _); [|lia|done].
  unfold spec_map in Hd. congruence.
Qed.

(** The candidates of the map are always met. *)
Lemma candidate_met k ops q x :
  whole (nb * bw) ops -> candidate nb bw bh (spec_map (nb * bw) ops) q x ->
  met k bh nb bw ops q x.
Proof.
  intros Hw (s & Hs & i & Hi & Hk). exists i. split; [done|].
  pose proof (after_inv k bh nb bw f64_one ops) as HI.
  destruct (lookup_lt_is_Some_2 (bands (after k bh nb bw f64_one ops)) i) as [b Hb].
  { by rewrite (inv_len _ _ _ _ _ _ _ HI). }
  destruct (inv_band _ _ _ _ _ _ _ HI _ _ Hb) as [_ Hcov].
  rewrite <- (run_tallies k bh nb bw f64_one ops Hw i b Hb). apply tally_pos.
  rewrite <- Hk. by apply Hcov.
Qed.

Lemma same_again_single ops : same_again (nb * bw) ops -> Forall single ops.
Proof.
  unfold same_again. generalize (∅ : smap). induction ops as [|o ops IH]; intros sm; [done|].
  intros [Ho Hsa]. constructor; [by destruct o|by eapply IH].
Qed.

(** Moreover the candidates are then those of the map. *)
Lemma set_same_again_met ops q x :
  same_again (nb * bw) ops ->
  met KHashSet bh nb bw ops q x <-> candidate nb bw bh (spec_map (nb * bw) ops) q x.
Proof.
  intros Hsa. split.
  - intros (i & Hi & Hp). unfold marks in Hp.
    apply set_marks_from in Hp as (s & Hs & Hk); [|lia|done]. exists s. eauto.
  - apply candidate_met. by apply single_whole, same_again_single.
Qed.

Lemma set_same_again_query th ops q :
  same_again (nb * bw) ops -> length q = nb * bw ->
  exists S, query (container KHashSet Id) bh (after KHashSet bh nb bw th ops) q = Some S /\
    forall x, x ∈ S <-> expected_answer nb bw bh th (spec_map (nb * bw) ops) q x.
Proof.
  intros Hsa Hq. pose proof (same_again_single ops Hsa) as Hs.
  destruct (history_exact KHashSet bh nb bw th ops q) as (S & HS & Hin);
    [by apply single_whole|by apply single_sized|done|].
  exists S. split; [done|]. intros x. rewrite Hin. unfold history_answer, expected_answer. split.
  - intros (s & Hx & Hg & Hm). exists s. split; [done|]. split; [done|].
    apply (set_same_again_met ops q x Hsa) in Hm as (s' & Hx' & Hi).
    rewrite Hx in Hx'. by injection Hx' as <-.
  - intros (s & Hx & Hg & Hi). exists s. split; [done|]. split; [done|].
    apply (set_same_again_met ops q x Hsa). exists s. eauto.
Qed.

Lemma notes_present k i key (x : Id) ps c :
  0 < foldl (note k bh bw i key x) c ps -> 0 < c \/ x ∈ ps.*1.
Proof.
  revert c. induction ps as [|[y s] ps IH]; intros c; simpl; [auto|].
  intros [Hp|Hp]%IH; [|right; by right].
  unfold note in Hp. simpl in Hp. destruct (decide _) as [[-> _]|]; [right; left|by left].
Qed.

Lemma insert_pairs_present (x : Id) (ps : list (Id * list T)) (m : smap) :
  is_Some (m !! x) \/ x ∈ ps.*1 -> is_Some (insert_pairs ps m !! x).
Proof.
  intros Hx. unfold insert_pairs. apply lookup_union_is_Some.
  destruct Hx as [Hx|Hx]; [by right|left].
  destruct ((list_to_map (reverse ps) : smap) !! x) eqn:E; [eauto|exfalso].
  apply not_elem_of_list_to_map in E. apply E.
  rewrite fmap_reverse. by apply elem_of_reverse.
Qed.

Lemma kept_marks_from k n i key (x : Id) (sm : smap) c ops :
  (0 < c -> is_Some (sm !! x)) -> Forall no_removal ops ->
  0 < marks_from k bh n bw i key x sm c ops ->
  is_Some (fold_left (spec_step n) ops sm !! x).
Proof.
  revert sm c. induction ops as [|o ops IH]; intros sm c Hc Hnr Hp; [by apply Hc|].
  apply Forall_cons in Hnr as [Ho Hnr]. simpl in *. eapply IH; [|exact Hnr|exact Hp].
  clear IH Hnr Hp. destruct o; simpl in *; try done.
  - destruct (decide (length sig = n)) as [Hl|]; [|done]. unfold note. simpl.
    destruct (decide (id = x)) as [->|]; [rewrite lookup_insert; eauto|].
    rewrite decide_False by naive_solver. by rewrite lookup_insert_ne by done.
  - destruct (bulk_rejected _ _ _); [done|]. intros [Hp|Hp]%notes_present;
      apply insert_pairs_present; auto.
  - destruct (pairs_too_short _ _); [done|]. intros [Hp|Hp]%notes_present;
      apply insert_pairs_present; auto.
  - lia.
Qed.

Lemma no_removal_no_ghost k ops q x :
  Forall no_removal ops -> ~ ghost k bh nb bw ops q x.
Proof.
  intros Hnr [(i & Hi & Hp) Hd]. unfold marks in Hp.
  apply kept_marks_from in Hp as [s Hs]; [|lia|done].
  unfold spec_map in Hd. congruence.
Qed.

(** A ghost comes from the calls on its id alone. *)
Lemma ghost_alone k ops q x :
  Forall single ops ->
  ghost k bh nb bw ops q x <-> ghost k bh nb bw (calls_on x ops) q x.
Proof.
  intros Hs. destruct (alone k bh (nb * bw) bw x ops Hs) as [Hm Hx].
  unfold ghost, met. rewrite Hx. by setoid_rewrite Hm.
Qed.

(** Clearing exorcises: what was before does not matter. *)
Lemma ghost_clear k ops ops' q x :
  ghost k bh nb bw (ops ++ Clear :: ops') q x <-> ghost k bh nb bw ops' q x.
Proof.
  assert (Hm : forall i key, marks k bh (nb * bw) bw i key x (ops ++ Clear :: ops') =
    marks k bh (nb * bw) bw i key x ops').
  { intros i key. unfold marks. generalize (∅ : smap) at 1. generalize 0 at 1.
    induction ops as [|o ops IH]; intros c sm; [done|]. simpl. apply IH. }
  unfold ghost, met. setoid_rewrite Hm. unfold spec_map. by rewrite fold_left_app.
Qed.
End NoGhost.
