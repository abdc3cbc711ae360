(** Facts about the simhash index. *)
From stdpp Require Import base list gmap fin_maps fin_sets sorting.
From Coq Require Import NArith Lia.
From Verif Require Import Base Par ParFacts SimHashBits Permutation SimHashIndex SpecSimHash SpecIndex
  BitsFacts PermutationFacts.

Section SimHashIndexFacts.
Context {Id : Type} `{Countable Id}.
Implicit Types (sm : gmap Id N) (m : sindex Id) (t : table Id).

(** ** Bulk inserts are sequences of inserts *)
Definition sinserts (ps : list (Id * N)) (m : sindex Id) : sindex Id :=
  foldl (fun m p => sinsert p.1 p.2 m) m ps.

Lemma sinserts_eq ps m :
  sinserts ps m =
  set_tables ((fun t => fold_left (fun t p => table_insert p.1 p.2 t) ps t) <$> hash_tables m)
    (foldl (fun sg p => <[p.1 := p.2]> sg) (s_signatures m) ps) m.
Proof.
  unfold sinserts. revert m. induction ps as [|p ps IH]; intros m.
  - cbn. rewrite list_fmap_id. by destruct m.
  - cbn [foldl]. rewrite IH. unfold sinsert, set_tables. cbn.
    f_equal. rewrite <- list_fmap_compose. done.
Qed.

Lemma par_tables sched ps (ts : list (table Id)) :
  (par_for_each sbulk_body sched ps ts).1 =
  (fun t => fold_left (fun t p => table_insert p.1 p.2 t) ps t) <$> ts.
Proof.
  rewrite (par_for_each_total sbulk_body (fun _ => True) (fun p t => table_insert p.1 p.2 t));
    [done|done|]. by apply Forall_true.
Qed.

Lemma spar_bulk_insert_pairs_eq sched ps m : spar_bulk_insert_pairs sched ps m = sinserts ps m.
Proof. unfold spar_bulk_insert_pairs. by rewrite par_tables, sinserts_eq. Qed.
Lemma spar_bulk_insert_eq sched ids sigs m :
  spar_bulk_insert sched ids sigs m = sinserts (zip ids sigs) m.
Proof. unfold spar_bulk_insert. by rewrite par_tables, sinserts_eq. Qed.

Lemma insert_all_union (ps : list (Id * N)) sm :
  foldl (fun sg p => <[p.1 := p.2]> sg) sm ps = list_to_map (reverse ps) ∪ sm.
Proof.
  induction ps as [|p ps IH] using rev_ind.
  - cbn. by rewrite map_empty_union.
  - rewrite foldl_app. cbn. rewrite IH, reverse_snoc. cbn. by rewrite insert_union_l.
Qed.

(** ** The invariant *)
Definition table_ok (sm : gmap Id N) (t : table Id) : Prop :=
  (forall id s, sm !! id = Some s ->
     id ∈ default [] (t_table t !! N.land s (simple_mask (t_perm t)))) /\
  (forall key id, id ∈ default [] (t_table t !! key) -> is_Some (sm !! id)).

Record sinv (W nb d : nat) (sm : gmap Id N) (m : sindex Id) : Prop := {
  inv_perms : Forall2 (perm_ok W nb) (combinations (nb - d) (seq 0 nb)) (t_perm <$> hash_tables m);
  inv_tables : Forall (table_ok sm) (hash_tables m);
  inv_sigs : s_signatures m = sm;
  inv_fits : map_Forall (fun _ s => s < 2 ^ N.of_nat W)%N sm;
  inv_dist : s_hamming_distance m = d;
  inv_blocks : s_num_blocks m = nb;
  inv_size : s_size m = 0;
}.

Lemma sindex_new_inv W nb d : 1 < W -> d <= nb <= W ->
  exists m, sindex_new W nb d = Some m /\ sinv W nb d ∅ m.
Proof.
  intros HW [Hd Hn]. unfold sindex_new.
  destruct (perm_create_spec W nb d HW Hn Hd) as (perms & -> & HF). cbn [mbind option_bind].
  assert (Hne := combinations_nonempty (nb - d) (seq 0 nb)).
  rewrite seq_length in Hne. specialize (Hne ltac:(lia)).
  pose proof (Forall2_length _ _ _ HF) as Hlen.
  destruct perms as [|p perms]; [by destruct (combinations (nb - d) (seq 0 nb))|].
  eexists. split; [reflexivity|]. split; cbn [hash_tables s_signatures s_hamming_distance s_num_blocks s_size]; try done.
  - rewrite <- list_fmap_compose. rewrite (list_fmap_ext _ Datatypes.id), list_fmap_id; done.
  - apply Forall_fmap, Forall_true. intros q. split.
    + intros id s. by rewrite lookup_empty.
    + intros key id. cbn. rewrite lookup_empty. by intros ?%elem_of_nil.
Qed.

Lemma table_insert_ok sm t id s : table_ok sm t -> table_ok (<[id := s]> sm) (table_insert id s t).
Proof.
  intros [H1 H2]. unfold table_insert, table_ok. cbn [t_table t_perm].
  set (M := simple_mask (t_perm t)) in *. split.
  - intros id' s' Hl. destruct (decide (N.land s M = N.land s' M)) as [E|E].
    + rewrite E, lookup_insert. cbn. apply elem_of_app.
      apply lookup_insert_Some in Hl as [[-> ->]|[Hne Hl]]; [right; by left|left; by apply H1].
    + rewrite lookup_insert_ne by done. apply H1.
      apply lookup_insert_Some in Hl as [[-> ->]|[Hne Hl]]; done.
  - intros key id' Hin. destruct (decide (id = id')) as [->|Hne].
    { rewrite lookup_insert. eauto. }
    rewrite lookup_insert_ne by done.
    destruct (decide (N.land s M = key)) as [<-|Hk].
    + rewrite lookup_insert in Hin. cbn in Hin. apply elem_of_app in Hin as [Hin|Hin]; [eauto|].
      apply elem_of_list_singleton in Hin. done.
    + rewrite lookup_insert_ne in Hin by done. eauto.
Qed.

Lemma sinsert_inv W nb d sm m id s : (s < 2 ^ N.of_nat W)%N ->
  sinv W nb d sm m -> sinv W nb d (<[id := s]> sm) (sinsert id s m).
Proof.
  intros Hs [H1 H2 H3 H4 H5 H6 H7].
  split; cbn [sinsert set_tables hash_tables s_signatures s_hamming_distance s_num_blocks s_size]; try done.
  - rewrite <- list_fmap_compose. done.
  - apply Forall_fmap. eapply Forall_impl; [exact H2|]. intros t. apply table_insert_ok.
  - by rewrite H3.
  - by apply map_Forall_insert_2.
Qed.

Lemma sinserts_inv W nb d ps sm m : Forall (fun p => p.2 < 2 ^ N.of_nat W)%N ps ->
  sinv W nb d sm m -> sinv W nb d (list_to_map (reverse ps) ∪ sm) (sinserts ps m).
Proof.
  intros Hps Hinv. rewrite <- insert_all_union. unfold sinserts.
  revert sm m Hinv. induction Hps as [|p ps Hp Hps IH]; intros sm m Hinv; [done|].
  cbn [foldl]. apply IH. by apply sinsert_inv.
Qed.

Lemma zip_fits W (ids : list Id) sigs : Forall (fun s => s < 2 ^ N.of_nat W)%N sigs ->
  Forall (fun p => p.2 < 2 ^ N.of_nat W)%N (zip ids sigs).
Proof.
  intros HF. apply Forall_forall. intros [id s] Hin. rewrite Forall_forall in HF.
  apply HF. by apply elem_of_zip_r in Hin.
Qed.

Lemma sstep_inv W nb d o sm m : sop_fits W o -> sinv W nb d sm m ->
  sinv W nb d (sspec_step sm o) (sstep m o).
Proof.
  intros Hf Hinv. destruct o as [id s|sched ids sigs|sched ps]; cbn [sspec_step sstep].
  - by apply sinsert_inv.
  - rewrite spar_bulk_insert_eq. apply sinserts_inv; [by apply zip_fits|done].
  - rewrite spar_bulk_insert_pairs_eq. by apply sinserts_inv.
Qed.

Lemma safter_inv W nb d ops : 1 < W -> d <= nb <= W -> Forall (sop_fits W) ops ->
  exists m, safter W nb d ops = Some m /\ sinv W nb d (sspec_map ops) m.
Proof.
  intros HW Hd Hops. unfold safter.
  destruct (sindex_new_inv W nb d HW Hd) as (m0 & -> & Hinv). cbn [mbind option_bind].
  eexists. split; [reflexivity|]. unfold sspec_map.
  revert m0 Hinv. generalize (∅ : gmap Id N).
  induction Hops as [|o ops Ho Hops IH]; intros sm m0 Hinv; [done|].
  cbn [foldl]. apply IH. by apply sstep_inv.
Qed.

(** ** Queries *)
Lemma filter_candidates (sm : gmap Id N) q d (cands : list Id) :
  (forall id, id ∈ cands -> is_Some (sm !! id)) ->
  exists ms, filter_res (fun id => s ← sm !! id; Some (hamming_distance q s <? d)) cands = Some ms /\
    forall id, id ∈ ms <-> id ∈ cands /\ exists s, sm !! id = Some s /\ hamming_distance q s < d.
Proof.
  induction cands as [|c cands IH]; intros Hc.
  - exists []. split; [done|]. intros id. split; [by intros ?%elem_of_nil|]. by intros [?%elem_of_nil _].
  - destruct IH as (ms & Em & Hm); [intros; apply Hc; by right|].
    destruct (Hc c (elem_of_list_here _ _)) as [s Hs].
    cbn [filter_res]. rewrite Hs, Em. cbn [mbind option_bind].
    eexists. split; [reflexivity|]. intros id. rewrite elem_of_cons.
    destruct (hamming_distance q s <? d) eqn:E.
    + apply Nat.ltb_lt in E. rewrite elem_of_cons, Hm. split.
      * intros [->|[? ?]]; [split; [by left|eauto]|tauto].
      * tauto.
    + apply Nat.ltb_ge in E. rewrite Hm. split; [tauto|].
      intros [[->|?] (s' & Hs' & Hlt)]; [|eauto]. rewrite Hs in Hs'. injection Hs' as ->. lia.
Qed.

Lemma query_tables sm q d (ts : list (table Id)) (S0 : gset Id) : Forall (table_ok sm) ts ->
  exists S1, foldl (fun acc t => s ← acc; table_query q sm d t s) (Some S0) ts = Some S1 /\
    forall id, id ∈ S1 <-> id ∈ S0 \/
      ((exists t, t ∈ ts /\ id ∈ default [] (t_table t !! N.land q (simple_mask (t_perm t)))) /\
       exists s, sm !! id = Some s /\ hamming_distance q s < d).
Proof.
  intros Hts. revert S0. induction Hts as [|t ts [_ Ht] Hts IH]; intros S0.
  - exists S0. split; [done|]. intros id. split; [by left|].
    intros [?|[(t & ?%elem_of_nil & _) _]]; done.
  - cbn [foldl mbind option_bind]. unfold table_query at 2.
    set (key := N.land q (simple_mask (t_perm t))) in *.
    specialize (Ht key).
    destruct (t_table t !! key) as [cands|] eqn:Ek.
    + destruct (filter_candidates sm q d cands Ht) as (ms & -> & Hm). cbn [mbind option_bind].
      destruct (IH (S0 ∪ list_to_set ms)) as (S1 & -> & HS). exists S1. split; [done|].
      intros id. rewrite HS, elem_of_union, elem_of_list_to_set, Hm. split.
      * intros [[?|[? ?]]|[(t' & ? & ?) ?]]; [by left| |].
        -- right. split; [|done]. exists t. split; [by left|]. fold key. by rewrite Ek.
        -- right. split; [|done]. exists t'. split; [by right|done].
      * intros [?|[(t' & [->|Hin]%elem_of_cons & Hc) ?]]; [by left; left| |].
        -- left. right. fold key in Hc. rewrite Ek in Hc. done.
        -- right. eauto.
    + destruct (IH S0) as (S1 & -> & HS). exists S1. split; [done|].
      intros id. rewrite HS. split.
      * intros [?|[(t' & ? & ?) ?]]; [by left|]. right. split; [|done].
        exists t'. split; [by right|done].
      * intros [?|[(t' & [->|Hin]%elem_of_cons & Hc) ?]]; [by left| |].
        -- fold key in Hc. rewrite Ek in Hc. by apply elem_of_nil in Hc.
        -- right. eauto.
Qed.

Lemma squery_exact W nb d sm m q : 1 < W -> d <= nb <= W -> sinv W nb d sm m ->
  (q < 2 ^ N.of_nat W)%N ->
  exists S, squery m q = Some S /\
    forall id, id ∈ S <-> exists s, sm !! id = Some s /\ hamming W q s < d.
Proof.
  intros HW [Hd Hn] [H1 H2 H3 H4 H5 H6 H7] Hq. unfold squery. rewrite H3, H5.
  destruct (query_tables sm q d (hash_tables m) ∅ H2) as (S1 & -> & HS).
  exists S1. split; [done|]. intros id. rewrite HS. split.
  - intros [?|[_ (s & Hs & Hlt)]]; [set_solver|]. exists s. split; [done|].
    rewrite <- hamming_distance_spec; [done|done|]. exact (H4 id s Hs).
  - intros (s & Hs & Hlt). right. split.
    2:{ exists s. split; [done|]. rewrite (hamming_distance_spec W); [done|done|]. exact (H4 id s Hs). }
    destruct (agreeing_blocks W nb d q s HW Hn Hd ltac:(lia)) as (I & HI & Hag).
    apply elem_of_list_lookup in HI as [i HI].
    destruct (Forall2_lookup_l _ _ _ _ _ H1 HI) as (p & Hp & _ & Hmask & _).
    apply list_lookup_fmap_Some in Hp as (t & Ht & ->).
    exists t. split; [by eapply elem_of_list_lookup_2|].
    rewrite Forall_forall in H2.
    destruct (H2 t) as [Hin _]; [by eapply elem_of_list_lookup_2|].
    replace (N.land q (simple_mask (t_perm t))) with (N.land s (simple_mask (t_perm t))); [by apply Hin|].
    apply land_agree. intros j (b & Hb & Hj)%Hmask. symmetry. eauto.
Qed.

Lemma min_by_spec {A} (f : A -> nat) (l : list A) :
  match min_by (fun x y => Nat.compare (f x) (f y)) l with
  | None => l = []
  | Some r => r ∈ l /\ forall y, y ∈ l -> f r <= f y
  end.
Proof.
  destruct l as [|x l]; [done|]. cbn [min_by].
  revert x. induction l as [|y l IH]; intros x; cbn [min_by_from].
  - split; [by left|]. intros y Hy. apply elem_of_list_singleton in Hy. by subst.
  - specialize (IH (match Nat.compare (f x) (f y) with Gt => y | _ => x end)).
    set (r := min_by_from _ _ _) in *. destruct IH as [Hr Hmin].
    destruct (Nat.compare_spec (f x) (f y)) as [E|E|E].
    + split; [set_solver|]. intros z Hz. assert (f r <= f x) by (apply Hmin; by left).
      apply elem_of_cons in Hz as [->|[->|Hz]%elem_of_cons]; [done|lia|apply Hmin; by right].
    + split; [set_solver|]. intros z Hz. assert (f r <= f x) by (apply Hmin; by left).
      apply elem_of_cons in Hz as [->|[->|Hz]%elem_of_cons]; [done|lia|apply Hmin; by right].
    + split; [set_solver|]. intros z Hz. assert (f r <= f y) by (apply Hmin; by left).
      apply elem_of_cons in Hz as [->|[->|Hz]%elem_of_cons]; [lia|done|apply Hmin; by right].
Qed.

Lemma squery_one_spec W nb d sm m q (order : gset Id -> list Id) :
  1 < W -> d <= nb <= W -> sinv W nb d sm m -> (q < 2 ^ N.of_nat W)%N -> is_order order ->
  exists r, squery_one order m q = Some r /\
    match r with
    | None => forall id s, sm !! id = Some s -> d <= hamming W q s
    | Some (id, k) => exists s, sm !! id = Some s /\ k = hamming W q s /\ k < d /\
        forall id' s', sm !! id' = Some s' -> k <= hamming W q s'
    end.
Proof.
  intros HW Hd Hinv Hq Ho. destruct (squery_exact W nb d sm m q HW Hd Hinv Hq) as (S & HS & Hin).
  destruct Hinv as [H1 H2 H3 H4 H5 H6 H7].
  unfold squery_one. rewrite HS. cbn [mbind option_bind]. eexists. split; [reflexivity|].
  rewrite H3. set (l := omap _ _).
  assert (Hl : forall id k, (id, k) ∈ l <-> exists s, sm !! id = Some s /\ k = hamming W q s /\ k < d).
  { intros id k. unfold l. rewrite elem_of_list_omap. split.
    - intros (id' & Hid & Es). rewrite (Ho S) in Hid. apply elem_of_elements, Hin in Hid as (s & Hs & Hlt).
      rewrite Hs in Es. cbn in Es. injection Es as -> <-. exists s.
      rewrite (hamming_distance_spec W), hamming_sym; [done|exact (H4 _ _ Hs)|done].
    - intros (s & Hs & -> & Hlt). exists id. split.
      + rewrite (Ho S). apply elem_of_elements, Hin. eauto.
      + rewrite Hs. cbn. f_equal. f_equal.
        rewrite (hamming_distance_spec W), hamming_sym; [done|exact (H4 _ _ Hs)|done]. }
  pose proof (min_by_spec snd l) as Hmin.
  destruct (min_by _ l) as [[id k]|].
  - destruct Hmin as [Hr Hmin]. apply Hl in Hr as (s & Hs & Ek & Hk). exists s.
    split; [done|]. split; [done|]. split; [done|]. intros id' s' Hs'.
    destruct (decide (hamming W q s' < d)); [|lia].
    apply (Hmin (id', hamming W q s')). apply Hl. eauto.
  - intros id s Hs. destruct (decide (d <= hamming W q s)); [done|exfalso].
    assert ((id, hamming W q s) ∈ l) as Hbad; [|by rewrite Hmin in Hbad; apply elem_of_nil in Hbad].
    apply Hl. exists s. repeat split; [done|lia].
Qed.

Lemma squery_return_distance_spec W nb d sm m q (order : gset Id -> list Id) sort :
  1 < W -> d <= nb <= W -> sinv W nb d sm m -> (q < 2 ^ N.of_nat W)%N -> is_order order ->
  is_sort_by_distance sort ->
  exists l, squery_return_distance order sort m q = Some l /\
    NoDup l.*1 /\
    (forall id k, (id, k) ∈ l <-> exists s, sm !! id = Some s /\ k = hamming W q s /\ k < d) /\
    forall i j a b, i < j -> l !! i = Some a -> l !! j = Some b -> a.2 <= b.2.
Proof.
  intros HW Hd Hinv Hq Ho Hsort.
  destruct (squery_exact W nb d sm m q HW Hd Hinv Hq) as (S & HS & Hin).
  destruct Hinv as [H1 H2 H3 H4 H5 H6 H7].
  unfold squery_return_distance. rewrite HS, H3. cbn [mbind option_bind].
  set (f := fun id => (id, hamming W q (default 0%N (sm !! id)))).
  assert (E : mapM (fun id => s ← sm !! id; Some (id, hamming_distance q s)) (order S)
              = Some (f <$> order S)).
  { assert (Hall : forall id, id ∈ order S -> is_Some (sm !! id)).
    { intros id Hid. rewrite (Ho S) in Hid. apply elem_of_elements, Hin in Hid as (s & Hs & _). eauto. }
    induction (order S) as [|id l IH]; [done|].
    cbn [mapM fmap list_fmap]. rewrite IH by (intros; apply Hall; by right).
    destruct (Hall id (elem_of_list_here _ _)) as [s Hs]. rewrite Hs. cbn [mbind option_bind].
    unfold f at 2. rewrite Hs. cbn. rewrite (hamming_distance_spec W); [done|done|exact (H4 _ _ Hs)]. }
  rewrite E. cbn [mbind option_bind]. eexists. split; [reflexivity|].
  destruct (Hsort (f <$> order S)) as [Hp Hle]. split; [|split; [|exact Hle]].
  - rewrite Hp, <- list_fmap_compose. rewrite (list_fmap_ext _ Datatypes.id), list_fmap_id by done.
    rewrite (Ho S). apply NoDup_elements.
  - intros id k. rewrite Hp, elem_of_list_fmap. split.
    + intros (id' & E' & Hid). unfold f in E'. injection E' as -> ->.
      rewrite (Ho S) in Hid. apply elem_of_elements, Hin in Hid as (s & Hs & Hlt).
      rewrite Hs. eauto.
    + intros (s & Hs & -> & Hlt). exists id. unfold f. rewrite Hs. split; [done|].
      rewrite (Ho S). apply elem_of_elements, Hin. eauto.
Qed.
End SimHashIndexFacts.
