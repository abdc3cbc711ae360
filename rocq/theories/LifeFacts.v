(** The life of one id determines its marks. *)
From stdpp Require Import base list gmap.
From Coq Require Import NArith ZArith.
From Verif Require Import Base Par ParFacts Float Container ContainerFacts MinHashIndex SpecIndex
  SpecHistory SpecHistoryQuery MinHashIndexFacts MinHashIndexFacts3 MinHashIndexThms HistoryFacts HistoryQueryFacts
  MinHasher Text StringIndex PyTokenizer PyMinHash SpecPy PyFacts SpecLife.
Local Open Scope nat_scope.

(** ** One life *)
Section Machine.
Context {A : Type} (hit : A -> Prop) `{!forall a, Decision (hit a)}.
Implicit Types (l : list (option A)).

Definition event (k : container_kind) (st : option A * nat) (e : option A) : option A * nat :=
  match e with
  | Some a => (Some a, if decide (hit a) then noted k st.2 else st.2)
  | None => (None, match st.1 with
                   | Some a => if decide (hit a) then forgotten k st.2 else st.2
                   | None => st.2
                   end)
  end.
Definition events k st l := foldl (event k) st l.

Lemma events_now k l : (events k (None, 0) l).1 = now l.
Proof.
  destruct l as [|e l _] using rev_ind; [done|].
  unfold events, now. rewrite foldl_snoc, last_snoc. by destruct e.
Qed.

(** Vectors. *)
Lemma events_vec k l cur c : k <> KHashSet ->
  match l with None :: _ => cur = None | _ => True end ->
  (events k (cur, c) l).2 = c + length (filter hit (left_over l)).
Proof.
  intros Hk. assert (Hn : forall c, noted k c = S c) by (by destruct k).
  assert (Hf : forall c, forgotten k c = pred c) by (by destruct k).
  remember (length l) as len eqn:El. revert l cur c El.
  induction (lt_wf len) as [len _ IH]. intros [|[a|] l] cur c El Hcur; subst len.
  - simpl. lia.
  - destruct l as [|[b|] l].
    + simpl. rewrite filter_cons. destruct (decide (hit a)); simpl; rewrite ?Hn; lia.
    + change (events k (cur, c) (Some a :: Some b :: l)) with
        (events k (event k (cur, c) (Some a)) (Some b :: l)).
      change (left_over (Some a :: Some b :: l)) with (a :: left_over (Some b :: l)).
      simpl event. rewrite (IH (S (length l))) by (simpl; done || lia).
      rewrite filter_cons. destruct (decide (hit a)); simpl; rewrite ?Hn; lia.
    + change (left_over (Some a :: None :: l)) with (left_over l).
      change (events k (cur, c) (Some a :: None :: l)) with
        (events k (event k (event k (cur, c) (Some a)) None) l).
      assert (E : event k (event k (cur, c) (Some a)) None = (None, c)).
      { simpl. by destruct (decide (hit a)); rewrite ?Hn, ?Hf. }
      rewrite E. apply (IH (length l)); [simpl; lia|done|by destruct l as [|[]]].
  - rewrite Hcur.
    change (events k (None, c) (None :: l)) with (events k (None, c) l).
    change (left_over (None :: l)) with (left_over l).
    apply (IH (length l)); [simpl; lia|done|by destruct l as [|[]]].
Qed.

(** Sets. *)
Lemma events_set l : 0 < (events KHashSet (None, 0) l).2 <-> outlives hit l.
Proof.
  induction l as [|e l IH] using rev_ind.
  { split; [simpl; lia|]. by intros (j & a & ? & _). }
  unfold events in *. rewrite foldl_snoc.
  pose proof (events_now KHashSet l) as Hnow. unfold events in Hnow.
  destruct (foldl (event KHashSet) (None, 0) l) as [cur c]. simpl in Hnow, IH. subst cur.
  destruct e as [a|]; simpl.
  - destruct (decide (hit a)) as [Ha|Ha].
    + split; [|lia]. intros _. exists (length l), a. split; [|split; [done|]].
      { by rewrite lookup_app_r, Nat.sub_diag. }
      intros r a' Hr _ Hn. apply lookup_lt_Some in Hn. rewrite app_length in Hn. simpl in Hn. lia.
    + rewrite IH. split; intros (j & b & Hj & Hb & Hall).
      * exists j, b. split; [by apply lookup_app_l_Some|]. split; [done|].
        intros r a' Hr Hra Hn.
        assert (S r < length (l ++ [Some a])) as Hlt by (by eapply lookup_lt_Some).
        rewrite app_length in Hlt. simpl in Hlt.
        destruct (decide (S r < length l)) as [Hl|Hl].
        -- rewrite lookup_app_l in Hra, Hn by lia. eauto.
        -- rewrite lookup_app_r in Hn by lia. replace (S r - length l) with 0 in Hn by lia. done.
      * apply lookup_app_Some in Hj as [Hj|[Hj1 Hj]].
        -- exists j, b. split; [done|]. split; [done|]. intros r a' Hr Hra Hn.
           apply (Hall r a'); [done|by apply lookup_app_l_Some..].
        -- exfalso. apply list_lookup_singleton_Some in Hj as [_ [= ->]]. done.
  - assert (Hold : ~ (exists a, now l = Some a /\ hit a) ->
      (outlives hit l <-> outlives hit (l ++ [None]))).
    { intros Hno. split; intros (j & b & Hj & Hb & Hall).
      - exists j, b. split; [by apply lookup_app_l_Some|]. split; [done|].
        intros r a' Hr Hra Hn Ha'.
        assert (r < length l) as Hlt.
        { destruct (decide (r < length l)); [done|]. rewrite lookup_app_r in Hra by lia.
          by apply list_lookup_singleton_Some in Hra as [_ ?]. }
        rewrite lookup_app_l in Hra by lia.
        destruct (decide (S r < length l)) as [Hl|Hl].
        + rewrite lookup_app_l in Hn by lia. by apply (Hall r a').
        + apply Hno. exists a'. split; [|done]. unfold now. rewrite last_lookup.
          replace (pred (length l)) with r by lia. by rewrite Hra.
      - apply lookup_app_Some in Hj as [Hj|[_ Hj]].
        2:{ by apply list_lookup_singleton_Some in Hj as [_ ?]. }
        exists j, b. split; [done|]. split; [done|]. intros r a' Hr Hra Hn.
        apply (Hall r a'); [done|by apply lookup_app_l_Some..]. }
    destruct (now l) as [a|] eqn:En.
    + destruct (decide (hit a)) as [Ha|Ha].
      * split; [simpl; lia|]. intros (j & b & Hj & Hb & Hall). exfalso.
        unfold now in En. rewrite last_lookup in En.
        destruct (l !! pred (length l)) as [x|] eqn:El; [|done]. simpl in En. subst x.
        pose proof (lookup_lt_Some _ _ _ El) as Hlt.
        assert (j < length l) as Hj'.
        { apply lookup_app_Some in Hj as [Hj|[_ Hj]]; [by eapply lookup_lt_Some|].
          by apply list_lookup_singleton_Some in Hj as [_ ?]. }
        apply (Hall (pred (length l)) a); [lia|by apply lookup_app_l_Some| |done].
        rewrite lookup_app_r by lia. by replace (S (pred (length l)) - length l) with 0 by lia.
      * rewrite IH. apply Hold. intros (a' & [= <-] & ?). done.
    + rewrite IH. apply Hold. by intros (a' & ? & _).
Qed.

Lemma events_remains k l : 0 < (events k (None, 0) l).2 <-> remains k hit l.
Proof.
  destruct k; [apply events_set| |].
  all: rewrite events_vec by (done || by destruct l as [|[]]); simpl.
  all: split;
    [intros Hp; destruct (filter hit (left_over l)) as [|a f] eqn:E; [simpl in Hp; lia|];
     assert (a ∈ filter hit (left_over l)) as [? ?]%elem_of_list_filter by (rewrite E; left); eauto
    |intros (a & Hin & Ha);
     assert (a ∈ filter hit (left_over l)) as Hf by (by apply elem_of_list_filter);
     destruct (filter hit (left_over l)); [by apply elem_of_nil in Hf|simpl; lia]].
Qed.
End Machine.

(** ** The calls of the Rust index *)
Section Rust.
Context {T : Type} `{!EqDecision T}.
Context {Id : Type} `{Countable Id}.
Notation smap := (gmap Id (list T)).
Implicit Types (ops : list (op Id T)) (x : Id).

Section OneKey.
Context (k : container_kind) (bh : list T -> N) (n bw i : nat) (key : N) (x : Id).
Definition at_key (s : list T) : Prop := bh (nth_band bw i s) = key.
#[local] Instance at_key_dec s : Decision (at_key s).
Proof. unfold at_key. apply _. Defined.
Notation events := (events at_key k).

Lemma events_app st l l' : events st (l ++ l') = events (events st l) l'.
Proof. apply foldl_app. Qed.

Lemma events_pairs ps (m : smap) c :
  events (m !! x, c) (pairs_of x ps) = (insert_pairs ps m !! x, foldl (note k bh bw i key x) c ps).
Proof.
  revert m c. induction ps as [|[y s] ps IH]; intros m c.
  { simpl. unfold insert_pairs. simpl. by rewrite (left_id_L ∅ (∪)). }
  assert (E : insert_pairs ((y, s) :: ps) m = insert_pairs ps (<[y := s]> m)).
  { unfold insert_pairs. rewrite reverse_cons, list_to_map_app. simpl.
    rewrite insert_empty, <- (assoc_L (∪)). by rewrite insert_union_singleton_l. }
  rewrite E. simpl foldl. rewrite <- (IH (<[y := s]> m)).
  unfold pairs_of. rewrite filter_cons. simpl. unfold note. simpl.
  destruct (decide (y = x)) as [->|Hy].
  - rewrite lookup_insert. simpl.
    destruct (decide (x = x /\ _)) as [[_ Hk]|Hk]; destruct (decide (at_key s)) as [Ha|Ha]; try done.
    exfalso. apply Hk. done.
  - rewrite lookup_insert_ne by done. by destruct (decide (y = x /\ _)) as [[]|].
Qed.

Lemma life_events ops :
  Forall no_bulk_remove ops ->
  events (None, 0) (life n x ops) = (spec_map n ops !! x, marks k bh n bw i key x ops).
Proof.
  assert (Hg : forall (m : smap) c l, events (None, 0) l = (m !! x, c) -> Forall no_bulk_remove ops ->
    events (None, 0) (fold_left (life_step n x) ops l) =
    (fold_left (spec_step n) ops m !! x, marks_from k bh n bw i key x m c ops)).
  { induction ops as [|o ops IH]; intros m c l El Hb; [done|].
    apply Forall_cons in Hb as [Ho Hb]. simpl. apply IH; [|done].
    destruct o as [id s|sched ids sigs|sched ps|id|sched ids| | |r1 r2]; simpl in *; try done.
    - destruct (decide (length s = n)); [|done]. rewrite events_app, El, events_pairs.
      f_equal. unfold insert_pairs. simpl. by rewrite insert_empty, insert_union_singleton_l.
    - destruct (bulk_rejected n ids sigs); [done|]. by rewrite events_app, El, events_pairs.
    - destruct (pairs_too_short n ps); [done|]. by rewrite events_app, El, events_pairs.
    - destruct (decide (id = x)) as [->|Hid].
      + rewrite events_app, El, lookup_delete. simpl. f_equal.
        destruct (m !! x) as [s|]; [|done]. unfold forget. simpl.
        destruct (decide (x = x /\ _)) as [[_ Hk]|Hk]; destruct (decide (at_key s)) as [Ha|Ha]; try done.
        exfalso. apply Hk. done.
      + rewrite El, lookup_delete_ne by done. f_equal. destruct (m !! id); [|done].
        unfold forget. simpl. by destruct (decide (id = x /\ _)) as [[]|]. }
  intros Hb. apply (Hg ∅ 0 []); [|done]. by rewrite lookup_empty.
Qed.
End OneKey.
#[local] Existing Instance at_key_dec.

Lemma life_now n x ops : Forall no_bulk_remove ops -> now (life n x ops) = spec_map n ops !! x.
Proof.
  intros Hb. rewrite <- (events_now (at_key (fun _ => 0%N) 0 0 0%N) KVec).
  by rewrite (life_events KVec (fun _ => 0%N) n 0 0 0%N x ops Hb).
Qed.

Lemma life_marks k bh n bw i key x ops : Forall no_bulk_remove ops ->
  0 < marks k bh n bw i key x ops <-> remains k (at_key bh bw i key) (life n x ops).
Proof.
  intros Hb. rewrite <- events_remains. by rewrite (life_events k bh n bw i key x ops Hb).
Qed.

Lemma life_met k bh nb bw q x ops : Forall no_bulk_remove ops ->
  met k bh nb bw ops q x <-> haunts k bh nb bw (life (nb * bw) x ops) q.
Proof.
  intros Hb. unfold met, haunts. split; intros (i & Hi & Hm); exists i; (split; [done|]).
  - by apply life_marks in Hm.
  - by apply life_marks.
Qed.

Lemma life_count k bh nb bw th ops i b key x :
  k <> KHashSet -> whole (nb * bw) ops -> Forall no_bulk_remove ops ->
  bands (after k bh nb bw th ops) !! i = Some b ->
  length (filter (fun y => y = x)
    (match hash_table b !! key with Some c => ic_elems (container k Id) c | None => [] end)) =
  length (filter (fun s => bh (nth_band bw i s) = key) (left_over (life (nb * bw) x ops))).
Proof.
  intros Hk Hw Hb Hi. rewrite (bucket_contents k bh nb bw th ops i b key x Hw Hi).
  pose proof (life_events k bh (nb * bw) bw i key x ops Hb) as E.
  apply (f_equal snd) in E. simpl in E. rewrite <- E.
  rewrite events_vec by (done || by destruct (life _ _ _) as [|[]]). simpl. done.
Qed.

Lemma life_query k bh nb bw th ops q :
  whole (nb * bw) ops -> Forall no_bulk_remove ops ->
  well_sized (nb * bw) (spec_map (nb * bw) ops) -> length q = nb * bw ->
  exists S, query (container k Id) bh (after k bh nb bw th ops) q = Some S /\
    forall x, x ∈ S <-> exists s, now (life (nb * bw) x ops) = Some s /\
      f64_ge (sim s q) th = true /\ haunts k bh nb bw (life (nb * bw) x ops) q.
Proof.
  intros Hw Hb Hs Hq. destruct (history_exact k bh nb bw th ops q Hw Hs Hq) as (S & HS & Hin).
  exists S. split; [done|]. intros x. rewrite Hin. unfold history_answer.
  rewrite (life_now _ _ _ Hb). pose proof (life_met k bh nb bw q x ops Hb) as Hm.
  unfold met in Hm. by setoid_rewrite Hm.
Qed.

Lemma life_similarity_panics k bh nb bw th ops q order sort :
  whole (nb * bw) ops -> Forall no_bulk_remove ops ->
  well_sized (nb * bw) (spec_map (nb * bw) ops) -> length q = nb * bw ->
  is_order order -> is_sort f64_ge sort ->
  query_owned_return_similarity (container k Id) bh order sort (after k bh nb bw th ops) q = None <->
  exists x, now (life (nb * bw) x ops) = None /\ haunts k bh nb bw (life (nb * bw) x ops) q.
Proof.
  intros Hw Hb Hs Hq Ho Hso.
  assert (Hgh : forall x, ghost k bh nb bw ops q x <->
    now (life (nb * bw) x ops) = None /\ haunts k bh nb bw (life (nb * bw) x ops) q).
  { intros x. unfold ghost. rewrite (life_now _ _ _ Hb), (life_met _ _ _ _ _ _ _ Hb). tauto. }
  setoid_rewrite <- Hgh. split.
  - intros E. destruct (history_candidates k bh nb bw th ops q Hw Hq) as (cs & Hcs & Hin).
    destruct (decide (Exists (fun x => spec_map (nb * bw) ops !! x = None) (elements cs))) as [Hx|Hx].
    + apply Exists_exists in Hx as (x & Hx & Hd). exists x. split; [|done].
      apply Hin. by apply elem_of_elements.
    + exfalso. destruct (history_similarity k bh nb bw th ops q order sort) as (l & El & _); try done.
      * intros x [Hm Hd]. apply Hx, Exists_exists. exists x. split; [|done].
        apply elem_of_elements. by apply Hin.
      * congruence.
  - intros [x Hx]. by eapply history_similarity_panics.
Qed.

(** The keys of the table of band [i]: those under which some id remains. *)
Lemma life_keys k bh nb bw th ops i b key :
  whole (nb * bw) ops -> Forall no_bulk_remove ops ->
  bands (after k bh nb bw th ops) !! i = Some b ->
  is_Some (hash_table b !! key) <->
  exists x, remains k (fun s => bh (nth_band bw i s) = key) (life (nb * bw) x ops).
Proof.
  intros Hw Hb Hi.
  setoid_rewrite <- (life_marks k bh (nb * bw) bw i key _ ops Hb).
  setoid_rewrite <- (bucket_contents k bh nb bw th ops i b key _ Hw Hi).
  split.
  - intros [c Hc]. rewrite Hc.
    assert (Hne : ic_len (container k Id) c ≠ 0)
      by (eapply no_empty_bucket; [by eapply elem_of_list_lookup_2|done]).
    rewrite (law_len _ (container_laws_all k)) in Hne.
    destruct (ic_elems (container k Id) c) as [|y l] eqn:E; [done|].
    exists y. rewrite filter_cons, decide_True by done. simpl. lia.
  - intros [x Hx]. destruct (hash_table b !! key); [eauto|]. simpl in Hx. lia.
Qed.
End Rust.

(** ** A left-over insertion stays for ever *)
Section Forever.
Context {A : Type}.
Implicit Types (l : list (option A)).

Lemma left_over_app l l' :
  (now l = None \/ head l' <> Some None) -> left_over (l ++ l') = left_over l ++ left_over l'.
Proof.
  remember (length l) as len eqn:El. revert l El.
  induction (lt_wf len) as [len _ IH]. intros [|[a|] l] El Hor; subst len; [done| |].
  - destruct l as [|[b|] l].
    + destruct Hor as [Hn|Hh]; [done|]. simpl. destruct l' as [|[c|] l']; [done|done|]. by destruct Hh.
    + change ((Some a :: Some b :: l) ++ l') with (Some a :: Some b :: (l ++ l')).
      change (left_over (Some a :: Some b :: (l ++ l'))) with (a :: left_over ((Some b :: l) ++ l')).
      rewrite (IH (length (Some b :: l))) by (simpl; (lia || done)). done.
    + change (left_over ((Some a :: None :: l) ++ l')) with (left_over (l ++ l')).
      rewrite (IH (length l)); [done|simpl; lia|done|].
      destruct Hor as [Hn|]; [|by right]. left. unfold now in *. destruct l; [done|]. done.
  - change (left_over ((None :: l) ++ l')) with (left_over (l ++ l')).
    rewrite (IH (length l)); [done|simpl; lia|done|].
    destruct Hor as [Hn|]; [|by right]. left. unfold now in *. by destruct l.
Qed.
End Forever.

(** ** The number of buckets *)
Section Sizes.
Context {T : Type} `{!EqDecision T}.
Context {Id : Type} `{Countable Id}.

Lemma life_sizes k (bh : list T -> N) nb bw th (ops : list (op Id T)) st i z :
  whole (nb * bw) ops -> Forall no_bulk_remove ops ->
  band_sizes (container k Id) (after k bh nb bw th ops) = Some st -> sizes st !! i = Some z ->
  exists keys : list N, NoDup keys /\ length keys = z /\
    forall key, key ∈ keys <->
      exists x, remains k (fun s => bh (nth_band bw i s) = key) (life (nb * bw) x ops).
Proof.
  intros Hw Hb Hst Hz. pose proof (band_sizes_spec (container k Id) (container_laws_all k) (after k bh nb bw th ops)) as Hs.
  rewrite Hst in Hs. destruct Hs as (Hs & _). rewrite Hs, list_lookup_fmap in Hz.
  destruct (bands (after k bh nb bw th ops) !! i) as [b|] eqn:Hi; [|done].
  simpl in Hz. injection Hz as <-.
  exists (map_to_list (hash_table b)).*1. split; [apply NoDup_fst_map_to_list|].
  split; [by rewrite fmap_length|]. intros key.
  rewrite <- (life_keys k bh nb bw th ops i b key Hw Hb Hi).
  rewrite elem_of_list_fmap. split.
  - intros ([key' c] & -> & Hc%elem_of_map_to_list). eauto.
  - intros [c Hc]. exists (key, c). split; [done|]. by apply elem_of_map_to_list.
Qed.
End Sizes.

(** ** The Python class *)
Definition each {A B} (f : A -> B) (l : list (option A)) : list (option B) := fmap (M:=list) (fmap (M:=option) f) l.

Section Images.
Context {A B : Type} (f : A -> B).
Implicit Types (l : list (option A)).

Lemma now_fmap l : now (each f l) = f <$> now l.
Proof. unfold now, each. rewrite fmap_last. by destruct (last l) as [[]|]. Qed.

Lemma left_over_fmap l : left_over (each f l) = f <$> left_over l.
Proof.
  remember (length l) as len eqn:El. revert l El.
  induction (lt_wf len) as [len _ IH]. intros [|[a|] l] El; subst len; [done| |].
  - destruct l as [|[b|] l]; [done| |].
    + change (left_over (each f (Some a :: Some b :: l))) with
        (f a :: left_over (each f (Some b :: l))).
      rewrite (IH (length (Some b :: l))); [done|simpl; lia|done].
    + change (left_over (each f l) = f <$> left_over l). apply (IH (length l)); [simpl; lia|done].
  - change (left_over (each f l) = f <$> left_over l). apply (IH (length l)); [simpl; lia|done].
Qed.

Lemma remains_fmap k (hit : B -> Prop) l : remains k hit (each f l) <-> remains k (fun a => hit (f a)) l.
Proof.
  assert (Hs : forall j a, (each f l) !! j = Some (Some a) <-> exists a', a = f a' /\ l !! j = Some (Some a')).
  { intros j a. unfold each. rewrite list_lookup_fmap. destruct (l !! j) as [[b|]|]; simpl; split; try done.
    - intros [= <-]. eauto.
    - by intros (a' & -> & [= ->]).
    - by intros (a' & _ & ?).
    - by intros (a' & _ & ?). }
  assert (Hn : forall j, (each f l) !! j = Some None <-> l !! j = Some None).
  { intros j. unfold each. rewrite list_lookup_fmap. by destruct (l !! j) as [[b|]|]. }
  destruct k; simpl.
  - unfold outlives. split.
    + intros (j & b & (a & -> & Hj)%Hs & Hb & Hall). exists j, a. split; [done|]. split; [done|].
      intros r a' Hr Hra Hrn. apply (Hall r); [done|apply Hs; eauto|by apply Hn].
    + intros (j & a & Hj & Ha & Hall). exists j, (f a). split; [apply Hs; eauto|]. split; [done|].
      intros r b Hr (a' & -> & Hra)%Hs Hrn%Hn. by eapply Hall.
  - rewrite left_over_fmap. split.
    + intros (b & (a & -> & Ha)%elem_of_list_fmap & Hb). eauto.
    + intros (a & Ha & Hb). exists (f a). split; [|done]. by apply elem_of_list_fmap_1.
  - rewrite left_over_fmap. split.
    + intros (b & (a & -> & Ha)%elem_of_list_fmap & Hb). eauto.
    + intros (a & Ha & Hb). exists (f a). split; [|done]. by apply elem_of_list_fmap_1.
Qed.
End Images.

Section Python.
Context (lower : text -> text)
        (shingles_str : list N -> nat -> option (list (list N)))
        (shingles_words : list (list N) -> nat -> option (list (list (list N)))).
Context (hash : token -> N) (draws : N -> nat -> nat -> N) (hk : hasher_kind).
Context (nb bw : nat) (tk : tokenizer) (lc : bool).
Notation n := (nb * bw).
Notation toks := (doc_tokens lower shingles_str shingles_words tk lc).
Notation sg := (sig_tokens hk hash draws n).
Notation trans := (trans lower shingles_str shingles_words hash draws hk nb bw tk lc).

Lemma trans_single o : Forall single (trans o).
Proof.
  destruct o; cbn [PyFacts.trans]; [..|].
  3: by repeat constructor.
  all: destruct (batch_raises _ _); [constructor|].
  all: unfold inserts; apply Forall_fmap, Forall_forall; done.
Qed.

Lemma run_single ops : Forall single (concat (trans <$> ops)).
Proof.
  apply Forall_concat, Forall_fmap, Forall_forall. intros o _. apply trans_single.
Qed.

Lemma single_no_bulk {T} `{!EqDecision T} {Id} `{Countable Id} (ops : list (op Id T)) :
  Forall single ops -> Forall no_bulk_remove ops.
Proof. intros Hs. eapply Forall_impl; [exact Hs|]. by intros []. Qed.

Lemma life_inserts x ps (l : list (option (list N))) :
  fold_left (life_step n x) ((fun p : Z * list token => Insert p.1 (sg p.2)) <$> ps) l =
  l ++ (each sg (Some <$> (filter (fun p => p.1 = x) ps).*2)).
Proof.
  revert l. induction ps as [|[y t] ps IH]; intros l; [by rewrite app_nil_r|].
  simpl fold_left. rewrite decide_True by apply sg_ok. rewrite IH, filter_cons.
  unfold pairs_of. rewrite filter_cons. simpl.
  destruct (decide (y = x)); simpl; [by rewrite <- app_assoc|by rewrite app_nil_r].
Qed.

Lemma life_run x ops : life n x (concat (trans <$> ops)) = each sg (py_life toks x ops).
Proof.
  unfold life, py_life.
  change (@nil (option (list N))) with (each sg (@nil (option (list token)))) at 1.
  generalize (@nil (option (list token))) as l.
  induction ops as [|o ops IH]; intros l; [done|].
  cbn [fmap list_fmap concat]. rewrite fold_left_app. cbn [fold_left]. rewrite <- IH. f_equal.
  destruct o as [id doc|id ts|id|s1 s2 ids docs|ids tss|s1 s2 ids tss]; cbn [PyFacts.trans py_life_step].
  3:{ cbn [fold_left life_step]. destruct (decide (id = x)); [|done]. unfold each. by rewrite fmap_app. }
  all: destruct (batch_raises _ _); [done|].
  all: unfold inserts; rewrite life_inserts; unfold each; rewrite fmap_app; reflexivity.
Qed.
End Python.

(** ** Ghosts of vectors and of sets *)
Section Ghosts.
Context {T : Type} `{!EqDecision T}.
Context {Id : Type} `{Countable Id}.
Implicit Types (ops : list (op Id T)) (x : Id).

Lemma left_over_mono {A} (l l' : list (option A)) a :
  now l = None -> a ∈ left_over l -> a ∈ left_over (l ++ l').
Proof. intros Hn Ha. rewrite left_over_app by auto. apply elem_of_app. by left. Qed.

Lemma life_grows n x ops ops' :
  Forall (fun o => o <> Clear) ops' -> exists l', life n x (ops ++ ops') = life n x ops ++ l'.
Proof.
  intros Hc. unfold life. rewrite fold_left_app. generalize (fold_left (life_step n x) ops []) as l.
  induction ops' as [|o ops' IH]; intros l; [exists []; by rewrite app_nil_r|].
  apply Forall_cons in Hc as [Ho Hc]. simpl. destruct (IH Hc (life_step n x l o)) as [l2 ->].
  assert (exists l1, life_step n x l o = l ++ l1) as [l1 ->].
  { destruct o; simpl; try done; try (exists []; by rewrite app_nil_r);
      case_match; eauto; exists []; by rewrite app_nil_r. }
  exists (l1 ++ l2). by rewrite app_assoc.
Qed.

Lemma vec_forever k (bh : list T -> N) nb bw x ops ops' q :
  k <> KHashSet -> Forall (fun o => o <> Clear) ops' ->
  now (life (nb * bw) x ops) = None -> haunts k bh nb bw (life (nb * bw) x ops) q ->
  haunts k bh nb bw (life (nb * bw) x (ops ++ ops')) q.
Proof.
  intros Hk Hc Hn (i & Hi & Hr). exists i. split; [done|].
  destruct (life_grows (nb * bw) x ops ops' Hc) as [l' ->].
  destruct k; [done| |]; destruct Hr as (a & Ha & Hm); exists a; (split; [|done]);
    by apply left_over_mono.
Qed.

Lemma set_exorcism (bh : list T -> N) nb bw x ops s :
  length s = nb * bw ->
  ~ haunts KHashSet bh nb bw (life (nb * bw) x (ops ++ [Insert x s; Remove x])) s.
Proof.
  intros Hs (i & Hi & Hr). unfold life in Hr. rewrite fold_left_app in Hr. simpl in Hr.
  rewrite decide_True in Hr by done. rewrite decide_True in Hr by done.
  unfold pairs_of in Hr. rewrite filter_cons in Hr. simpl in Hr. rewrite decide_True in Hr by done.
  simpl in Hr. destruct Hr as (j & a & Hj & Ha & Hall).
  rewrite <- app_assoc in *. simpl in *.
  set (l := fold_left (life_step (nb * bw) x) ops []) in *.
  apply (Hall (length l) s); [|by rewrite lookup_app_r, Nat.sub_diag| |done].
  - apply lookup_lt_Some in Hj as Hlt. rewrite app_length in Hlt. simpl in Hlt.
    destruct (decide (j = S (length l))) as [->|]; [|lia].
    rewrite lookup_app_r in Hj by lia. by replace (S (length l) - length l) with 1 in Hj by lia.
  - rewrite lookup_app_r by lia. by replace (S (length l) - length l) with 1 by lia.
Qed.
End Ghosts.
