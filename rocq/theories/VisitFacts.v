(** What a query of a MinHash index goes through. *)
From stdpp Require Import base list gmap fin_maps fin_sets.
From Coq Require Import NArith Lia.
From Verif Require Import Base Float Container ContainerFacts MinHashIndex SpecIndex SpecHistory SpecHistoryQuery
  MinHashIndexFacts MinHashIndexFacts2 MinHashIndexThms HistoryFacts HistoryQueryFacts TableFacts SpecVisits BitsFacts.
Local Open Scope nat_scope.

(** ** Sums *)
Lemma sum_ext {A} (f g : A -> nat) l : (forall x, x ∈ l -> f x = g x) -> sum_list (f <$> l) = sum_list (g <$> l).
Proof.
  induction l as [|x l IH]; intros E; [done|]. cbn [fmap list_fmap]. rewrite !sum_cons. f_equal.
  - apply E. left.
  - apply IH. intros y Hy. apply E. by right.
Qed.
Lemma sum_plus {A} (f g : A -> nat) l : sum_list ((fun x => f x + g x) <$> l) = sum_list (f <$> l) + sum_list (g <$> l).
Proof. induction l as [|x l IH]; [done|]. cbn [fmap list_fmap]. rewrite !sum_cons. rewrite IH. lia. Qed.
Lemma sum_le {A} (f g : A -> nat) l : (forall x, x ∈ l -> f x <= g x) -> sum_list (f <$> l) <= sum_list (g <$> l).
Proof.
  induction l as [|x l IH]; intros E; [done|]. cbn [fmap list_fmap]. rewrite !sum_cons. apply Nat.add_le_mono.
  - apply E. left.
  - apply IH. intros y Hy. apply E. by right.
Qed.
Lemma sum_if {A} (P : A -> Prop) `{!forall x, Decision (P x)} (j : nat) l :
  sum_list ((fun x => if decide (P x) then j else 0) <$> l) = j * length (filter P l).
Proof.
  induction l as [|x l IH]; [cbn; lia|]. cbn [fmap list_fmap]. rewrite sum_cons, filter_cons. rewrite IH.
  destruct (decide (P x)); cbn [length]; lia.
Qed.
Lemma sum_const {A} (c : nat) (l : list A) : sum_list ((fun _ => c) <$> l) = length l * c.
Proof. induction l as [|x l IH]; [done|]. cbn [fmap list_fmap]. rewrite sum_cons. rewrite IH. cbn. lia. Qed.
Lemma sum_lookup {A} (g : A -> nat) (f : nat -> nat) (ls : list A) n :
  length ls = n -> (forall i l, ls !! i = Some l -> g l = f i) -> sum_list (g <$> ls) = sum_list (f <$> seq 0 n).
Proof.
  intros Hn Hf. f_equal. apply list_eq. intros i. rewrite !list_lookup_fmap. destruct (ls !! i) as [l|] eqn:E.
  - rewrite lookup_seq_lt by (apply lookup_lt_Some in E; lia). cbn. by rewrite (Hf i l E).
  - rewrite lookup_seq_ge; [done|]. apply lookup_ge_None in E. lia.
Qed.

Section Count.
Context {Id : Type} `{Countable Id}.
Lemma filter_one (all : list Id) y : NoDup all -> y ∈ all -> length (filter (fun x => y = x) all) = 1.
Proof.
  intros Hn Hy. rewrite <- (occ_nodup all y Hn Hy). unfold occ. f_equal. apply list_filter_iff. done.
Qed.
Lemma size_set_le (l : list Id) : size (list_to_set l : gset Id) <= length l.
Proof.
  induction l as [|x l IH]; [done|]. cbn [list_to_set length].
  rewrite size_union_alt.
  rewrite size_singleton. pose proof (subseteq_size (list_to_set l ∖ {[x]} : gset Id) (list_to_set l) ltac:(set_solver)). lia.
Qed.
Lemma length_occ (l all : list Id) : NoDup all -> (forall x, x ∈ l -> x ∈ all) ->
  length l = sum_list (occ l <$> all).
Proof.
  intros Hn Ha. unfold occ. rewrite (sum_swap (fun x y => y = x) all l).
  rewrite (sum_ext _ (fun _ => 1)); [rewrite sum_const; lia|]. intros y Hy. apply filter_one; auto.
Qed.
End Count.

Section Visits.
Context {T : Type} `{!EqDecision T}.
Context {Id : Type} `{Countable Id}.
Context (k : container_kind) (bh : list T -> N) (nb bw : nat) (th : f64).
Notation K := (container k Id).
Notation n := (nb * bw).
Implicit Types (ops : list (op Id T)) (q s : list T) (x : Id).

(** The buckets a query meets. *)
Lemma buckets ops q : length q = n -> exists ls, mapM (band_query K bh q) (bands (after k bh nb bw th ops)) = Some ls /\
  length ls = nb /\ forall i l, ls !! i = Some l -> exists b, bands (after k bh nb bw th ops) !! i = Some b /\
    l = match hash_table b !! bh (nth_band bw i q) with Some c => ic_elems K c | None => [] end.
Proof.
  intros Hq. pose proof (after_inv k bh nb bw th ops) as HI. set (m := after k bh nb bw th ops) in *.
  assert (Hb : forall i b, bands m !! i = Some b -> band_query K bh q b =
    Some (match hash_table b !! bh (nth_band bw i q) with Some c => ic_elems K c | None => [] end)).
  { intros i b Hi. destruct (inv_band _ _ _ _ _ _ _ HI i b Hi) as [Hok _]. unfold band_query.
    rewrite (band_key_ok K bh bw i); [done|done|]. pose proof (band_le K nb bw _ _ _ (inv_len _ _ _ _ _ _ _ HI) Hi). lia. }
  assert (HS : is_Some (mapM (band_query K bh q) (bands m))).
  { apply mapM_is_Some. apply Forall_forall. intros b [i Hi]%elem_of_list_lookup. exists (match hash_table b !! bh (nth_band bw i q) with Some c => ic_elems K c | None => [] end). exact (Hb i b Hi). }
  destruct HS as [ls Hls]. exists ls. split; [done|]. apply mapM_Some in Hls. split.
  - rewrite <- (Forall2_length _ _ _ Hls). apply (inv_len _ _ _ _ _ _ _ HI).
  - intros i l Hl. destruct (Forall2_lookup_r _ _ _ _ _ Hls Hl) as (b & Hi & E). exists b. split; [done|].
    pose proof (Hb i b Hi) as E2. cbn beta in E. congruence.
Qed.

(** Who is never offered stands nowhere. *)
Lemma foldl_note i key x c (ps : list (Id * list T)) : x ∉ ps.*1 -> foldl (note k bh bw i key x) c ps = c.
Proof.
  revert c. induction ps as [|[y s] ps IH]; intros c Hx; [done|]. cbn in Hx. apply not_elem_of_cons in Hx as [Hne Hx].
  cbn [foldl]. rewrite IH by done. unfold note. cbn [fst snd]. rewrite decide_False; [done|]. intros [? _]. congruence.
Qed.
Lemma foldl_forget_zero i key x (ps : list (list T * Id)) : foldl (forget k bh bw i key x) 0 ps = 0.
Proof.
  induction ps as [|p ps IH]; [done|]. cbn [foldl].
  replace (forget k bh bw i key x 0 p) with 0; [done|]. unfold forget. destruct (decide _); [|done]. by destruct k.
Qed.
Lemma marks_not_offered i key x sm ops : x ∉ offers ops -> marks_from k bh n bw i key x sm 0 ops = 0.
Proof.
  revert sm. induction ops as [|o ops IH]; intros sm Hx; [done|].
  unfold offers in Hx. cbn in Hx. apply not_elem_of_app in Hx as [Ho Hx]. cbn [marks_from].
  replace (marks_step k bh n bw i key x sm 0 o) with 0; [by apply IH|]. symmetry. destruct o; cbn [marks_step offered] in *; try done.
  - destruct (decide (length _ = n)); [|done]. unfold note. cbn. rewrite decide_False; [done|].
    intros [-> _]. apply Ho. left.
  - destruct (bulk_rejected _ _ _); [done|]. apply foldl_note. intros Hin. apply Ho.
    apply elem_of_list_fmap in Hin as ([y s] & -> & Hin). by apply elem_of_zip_l in Hin.
  - destruct (pairs_too_short _ _); [done|]. by apply foldl_note.
  - destruct (sm !! _); [|done]. apply (foldl_forget_zero i key x [_]).
  - apply foldl_forget_zero.
Qed.

Definition expected (all : list Id) ops q : nat :=
  sum_list ((fun i => sum_list ((fun x => marks k bh n bw i (bh (nth_band bw i q)) x ops) <$> all)) <$> seq 0 nb).

Lemma visits_exact ops q (all : list Id) : whole n ops -> length q = n -> NoDup all ->
  (forall x, x ∈ offers ops -> x ∈ all) ->
  visits K bh (after k bh nb bw th ops) q = Some (expected all ops q).
Proof.
  intros Hw Hq Hn Ha. destruct (buckets ops q Hq) as (ls & E & Hlen & Hls). unfold visits. rewrite E. cbn. f_equal.
  unfold expected. apply sum_lookup; [done|]. intros i l Hl. destruct (Hls i l Hl) as (b & Hb & El).
  assert (Ho : forall x, occ l x = marks k bh n bw i (bh (nth_band bw i q)) x ops).
  { intros x. subst l. apply (bucket_contents k bh nb bw th ops i b _ x Hw Hb). }
  rewrite (length_occ l all Hn).
  - apply sum_ext. intros x _. apply Ho.
  - intros x Hx. apply occ_pos in Hx. rewrite Ho in Hx. apply Ha.
    destruct (decide (x ∈ offers ops)) as [|Hno]; [done|]. unfold marks in Hx. rewrite (marks_not_offered _ _ _ _ _ Hno) in Hx. lia.
Qed.

(** Candidates and similarities. *)
Lemma evaluations_exact ops q : whole n ops -> length q = n ->
  exists (v : nat) (l : list Id), visits K bh (after k bh nb bw th ops) q = Some v /\
    evaluations K bh (after k bh nb bw th ops) q = Some (length l) /\ NoDup l /\
    (forall x, x ∈ l <-> is_Some (spec_map n ops !! x) /\ met k bh nb bw ops q x) /\
    length l <= v /\ length l <= size (spec_map n ops).
Proof.
  intros Hw Hq. destruct (history_candidates k bh nb bw th ops q Hw Hq) as (cs & Hcs & Hin).
  destruct (buckets ops q Hq) as (ls & E & Hlen & Hls). pose proof (after_inv k bh nb bw th ops) as HI.
  unfold visits, evaluations. rewrite E, Hcs. rewrite (inv_sigs _ _ _ _ _ _ _ HI).
  exists (sum_list (length <$> ls)), (filter (fun x => is_Some (spec_map n ops !! x)) (elements cs)).
  split; [done|]. split; [done|]. split; [apply NoDup_filter, NoDup_elements|]. split; [|split].
  - intros x. rewrite elem_of_list_filter, elem_of_elements, Hin. done.
  - unfold candidates in Hcs. rewrite E in Hcs. cbn in Hcs. injection Hcs as <-.
    etransitivity; [apply filter_length|]. change (size (list_to_set (concat ls) : gset Id) <= sum_list (length <$> ls)).
    etransitivity; [apply size_set_le|]. clear. induction ls as [|l ls IH]; [done|].
    cbn [concat fmap list_fmap]. rewrite app_length, sum_cons. lia.
  - rewrite <- size_dom, <- (size_list_to_set (C := gset Id) (filter _ (elements cs))) by apply NoDup_filter, NoDup_elements.
    apply subseteq_size. intros x Hx. apply elem_of_list_to_set, elem_of_list_filter in Hx as [Hx _]. by apply elem_of_dom.
Qed.

(** Clean histories. *)
Lemma visits_clean ops q : clean n ops -> length q = n ->
  visits K bh (after k bh nb bw th ops) q =
    Some (sum_list ((fun p => same_keys bh nb bw q p.2) <$> map_to_list (spec_map n ops))).
Proof.
  intros Hc Hq. destruct (buckets ops q Hq) as (ls & E & Hlen & Hls). unfold visits. rewrite E. cbn. f_equal.
  unfold same_keys.
  rewrite <- (sum_swap (fun i (p : Id * list T) => bh (nth_band bw i p.2) = bh (nth_band bw i q)) (seq 0 nb)).
  apply sum_lookup; [done|]. intros i l Hl. destruct (Hls i l Hl) as (b & Hb & El).
  destruct (after_exact k bh nb bw th ops Hc i b Hb) as [He Hn]. set (sm := spec_map n ops) in *.
  rewrite <- (fmap_length fst). apply Permutation_length. apply NoDup_Permutation.
  - subst l. destruct (hash_table b !! _) as [c|] eqn:Ec; [by apply (Hn _ _ Ec)|constructor].
  - apply NoDup_fmap_fst; [|apply NoDup_filter, NoDup_map_to_list].
    intros x y1 y2 [_ H1]%elem_of_list_filter [_ H2]%elem_of_list_filter. apply elem_of_map_to_list in H1, H2. congruence.
  - intros x. trans (in_band K b (bh (nth_band bw i q)) x).
    + subst l. unfold in_band. destruct (hash_table b !! _) as [c|].
      * split; [eauto|]. by intros (? & [= <-] & ?).
      * split; [by intros ?%elem_of_nil|]. by intros (? & ? & _).
    + rewrite He. rewrite elem_of_list_fmap. split.
      * intros (s & Hs & Hk). exists (x, s). split; [done|]. apply elem_of_list_filter. split; [done|]. by apply elem_of_map_to_list.
      * intros ([y s] & -> & [Hk Hs]%elem_of_list_filter). apply elem_of_map_to_list in Hs. exists s. done.
Qed.

Lemma same_keys_le q s : same_keys bh nb bw q s <= nb.
Proof. unfold same_keys. etransitivity; [apply filter_length|]. by rewrite seq_length. Qed.
Lemma same_keys_bands q s : collision_free bw bh -> length q = n -> length s = n ->
  same_keys bh nb bw q s = same_bands nb bw q s.
Proof.
  intros Hc Hq Hs. unfold same_keys, same_bands. f_equal. apply filter_ext_length. intros i Hi.
  apply elem_of_seq in Hi. split; [|congruence]. assert ((i + 1) * bw <= n) by (apply Nat.mul_le_mono_r; lia).
  intros Hk. symmetry. symmetry. apply Hc; [| |done]; unfold nth_band; rewrite take_length, drop_length; lia.
Qed.

(** ** One more of the same *)
Lemma marks_app i key x ops ops' : marks k bh n bw i key x (ops ++ ops') =
  marks_from k bh n bw i key x (spec_map n ops) (marks k bh n bw i key x ops) ops'.
Proof.
  unfold marks, spec_map. generalize 0 (∅ : gmap Id (list T)). induction ops as [|o ops IH]; intros c sm; [done|].
  cbn [app marks_from fold_left]. apply IH.
Qed.
Lemma marks_repeat_vec i key x sm c j id s : k <> KHashSet -> length s = n ->
  marks_from k bh n bw i key x sm c (replicate j (Insert id s)) =
  c + if decide (id = x /\ bh (nth_band bw i s) = key) then j else 0.
Proof.
  intros Hk Hs. revert sm c. induction j as [|j IH]; intros sm c; [cbn; destruct (decide _); lia|].
  cbn [replicate marks_from marks_step]. rewrite decide_True by done. rewrite IH. unfold note. cbn [fst snd].
  destruct (decide (id = x /\ _)); [|lia]. destruct k; cbn; [done|lia|lia].
Qed.
Lemma marks_repeat_set i key x sm c j id s : k = KHashSet -> length s = n ->
  marks_from k bh n bw i key x sm c (replicate (S j) (Insert id s)) =
  marks_from k bh n bw i key x sm c [Insert id s].
Proof.
  intros Hk Hs. revert sm c. induction j as [|j IH]; intros sm c; [done|].
  change (replicate (S (S j)) (Insert id s)) with (Insert id s :: replicate (S j) (Insert id s)).
  cbn [marks_from] in *. rewrite IH. cbn [marks_step]. rewrite !decide_True by done. unfold note. cbn [fst snd].
  destruct (decide (id = x /\ _)); [|done]. by subst k.
Qed.
End Visits.
