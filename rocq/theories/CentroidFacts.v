(** Proofs about centroids. *)
From stdpp Require Import base list gmap.
From Coq Require Import NArith Lia.
From Verif Require Import Base Float Container ContainerFacts MinHashIndex SpecIndex
  SimilarityFacts MinHashIndexFacts MinHashIndexThms Centroid SpecCentroid.
Local Open Scope nat_scope.

(** ** Counting *)
Section Counting.
Context {K : Type} `{!EqDecision K}.
Implicit Types (c : counter K) (l : list K) (k : K).

Lemma occurrences_nil k : occurrences k [] = 0.
Proof. done. Qed.
Lemma occurrences_cons k k' l :
  occurrences k (k' :: l) = (if decide (k' = k) then 1 else 0) + occurrences k l.
Proof. unfold occurrences. rewrite filter_cons. by case_decide. Qed.
Lemma occurrences_app k l1 l2 : occurrences k (l1 ++ l2) = occurrences k l1 + occurrences k l2.
Proof. unfold occurrences. by rewrite filter_app, app_length. Qed.
Lemma occurrences_pos k l : 0 < occurrences k l <-> k ∈ l.
Proof.
  induction l as [|k' l IH].
  - rewrite occurrences_nil. split; [lia|by intros ?%elem_of_nil].
  - rewrite occurrences_cons, elem_of_cons, <- IH. case_decide; naive_solver lia.
Qed.

(** The counter of a list of keys. *)
Definition counted l : counter K := fold_left (fun c k => bump k c) l [].

Definition counts c l : Prop :=
  NoDup c.*1 /\ forall k n, (k, n) ∈ c <-> k ∈ l /\ n = occurrences k l + 1.

Lemma bump_keys k c k' : k' ∈ (bump k c).*1 <-> k' = k \/ k' ∈ c.*1.
Proof.
  induction c as [|[k0 n0] c IH]; simpl.
  - rewrite elem_of_list_singleton, elem_of_nil. tauto.
  - case_decide; subst; simpl; rewrite !elem_of_cons, ?IH; tauto.
Qed.

Lemma bump_nodup k c : NoDup c.*1 -> NoDup (bump k c).*1.
Proof.
  induction c as [|[k0 n0] c IH]; simpl; intros Hnd.
  - apply NoDup_singleton.
  - apply NoDup_cons in Hnd as [Hni Hnd]. case_decide; subst; simpl.
    + by constructor.
    + constructor; [|auto]. rewrite bump_keys. intros [->|?]; done.
Qed.

Lemma bump_elem k c k' n : NoDup c.*1 ->
  (k', n) ∈ bump k c <->
  if decide (k' = k) then (k ∉ c.*1 /\ n = 2) \/ (exists n', (k, n') ∈ c /\ n = n' + 1)
  else (k', n) ∈ c.
Proof.
  induction c as [|[k0 n0] c IH]; simpl; intros Hnd.
  - rewrite elem_of_list_singleton. case_decide; subst.
    + split; [intros [= ->]; left; split; [apply not_elem_of_nil|done]|].
      intros [[_ ->]|(n' & []%elem_of_nil & _)]. done.
    + split; [intros [= -> ->]; done|by intros ?%elem_of_nil].
  - apply NoDup_cons in Hnd as [Hni Hnd]. specialize (IH Hnd).
    assert (Hk0 : forall n, (k0, n) ∉ c).
    { intros n' Hin. apply Hni, elem_of_list_fmap. by exists (k0, n'). }
    destruct (decide (k = k0)) as [<-|E1]; rewrite elem_of_cons.
    + case_decide as E2; [subst k'|].
      * split.
        -- intros [[= ->]|Hin]; [|by apply Hk0 in Hin]. right. exists n0. split; [by left|done].
        -- intros [[Hn _]|(n' & [[= ->]|Hin]%elem_of_cons & ->)].
           ++ destruct Hn. by left.
           ++ by left.
           ++ by apply Hk0 in Hin.
      * rewrite elem_of_cons. split; (intros [[= -> ->]|?]; [done|by right]).
    + rewrite IH. case_decide as E2; [subst k'|].
      * rewrite not_elem_of_cons. split.
        -- intros [[= -> ->]|[[? ->]|(n' & ? & ->)]]; [done|by left|].
           right. exists n'. split; [by right|done].
        -- intros [[[_ ?] ->]|(n' & [[= -> ->]|?]%elem_of_cons & ->)]; [by right; left|done|].
           right. right. eauto.
      * rewrite elem_of_cons. done.
Qed.

Lemma counts_bump c l k : counts c l -> counts (bump k c) (l ++ [k]).
Proof.
  intros [Hnd Hc]. split; [by apply bump_nodup|]. intros k' n.
  rewrite bump_elem by done. rewrite elem_of_app, elem_of_list_singleton, occurrences_app,
    occurrences_cons, occurrences_nil.
  case_decide as E; [subst k'|].
  - rewrite decide_True by done. split.
    + intros [[Hni ->]|(n' & (Hin & ->)%Hc & ->)]; (split; [by auto|]); [|lia].
      assert (~ 0 < occurrences k l); [|lia]. intros Hin%occurrences_pos. apply Hni.
      apply elem_of_list_fmap. exists (k, occurrences k l + 1). split; [done|]. by apply Hc.
    + intros [_ ->]. destruct (decide (k ∈ l)) as [Hin|Hni].
      * right. exists (occurrences k l + 1). split; [by apply Hc|lia].
      * left. split.
        -- intros ([? n'] & -> & (? & _)%Hc)%elem_of_list_fmap. done.
        -- assert (~ 0 < occurrences k l); [by rewrite occurrences_pos|lia].
  - rewrite Hc, decide_False by done. naive_solver lia.
Qed.

Lemma counted_counts l : counts (counted l) l.
Proof.
  induction l as [|k l IH] using rev_ind.
  - split; [constructor|]. intros k n. split; [by intros ?%elem_of_nil|].
    by intros [?%elem_of_nil _].
  - unfold counted. rewrite fold_left_app. simpl. by apply counts_bump.
Qed.

Lemma max_by_from_spec {A} (f : A -> nat) (acc : A) (l : list A) :
  let r := max_by_from (fun x y => Nat.compare (f x) (f y)) acc l in
  r ∈ acc :: l /\ forall x, x ∈ acc :: l -> f x <= f r.
Proof.
  revert acc. induction l as [|x l IH]; intros acc; simpl.
  { split; [by left|]. intros y ->%elem_of_list_singleton. done. }
  specialize (IH (match Nat.compare (f acc) (f x) with Gt => acc | _ => x end)).
  simpl in IH. set (r := max_by_from _ _ _) in *. destruct IH as [H1 H2]. split.
  - destruct (Nat.compare_spec (f acc) (f x)); set_solver.
  - intros y Hy. assert (Hr := H2 _ (elem_of_list_here _ _)).
    apply elem_of_cons in Hy as [->|[->|Hy]%elem_of_cons].
    + destruct (Nat.compare_spec (f acc) (f x)); lia.
    + destruct (Nat.compare_spec (f acc) (f x)); lia.
    + apply H2. by right.
Qed.

Lemma most_frequent_spec order l : (forall c, order c ≡ₚ c) ->
  match most_frequent order (counted l) with
  | Some k => is_mode k l
  | None => l = []
  end.
Proof.
  intros Ho. destruct (counted_counts l) as [Hnd Hc]. unfold most_frequent, max_by.
  specialize (Ho (counted l)). destruct (order (counted l)) as [|e es] eqn:E.
  - simpl. apply Permutation_nil in Ho. destruct l as [|k l]; [done|].
    exfalso. assert (Hin : (k, occurrences k (k :: l) + 1) ∈ counted (k :: l)).
    { apply Hc. split; [by left|done]. }
    rewrite Ho in Hin. by apply elem_of_nil in Hin.
  - simpl. destruct (max_by_from_spec snd e es) as [Hin Hmax]. simpl in *.
    set (r := max_by_from _ e es) in *. destruct r as [k n]. simpl in *.
    rewrite Ho in Hin. setoid_rewrite Ho in Hmax.
    apply Hc in Hin as [Hin ->]. split; [done|]. intros y.
    destruct (decide (y ∈ l)) as [Hy|Hy].
    + specialize (Hmax (y, occurrences y l + 1)). simpl in Hmax.
      feed pose proof Hmax; [by apply Hc|lia].
    + assert (~ 0 < occurrences y l); [by rewrite occurrences_pos|lia].
Qed.

(** ** One row into all counters *)
Definition count_row (cs : list (counter K)) (row : list K) : option (list (counter K)) :=
  try_fold (fun cs p => bump_at cs p.1 p.2) cs (imap pair row).

Lemma bump_at_ok cs i k c : cs !! i = Some c -> bump_at cs i k = Some (<[i := bump k c]> cs).
Proof. unfold bump_at. by intros ->. Qed.

Lemma count_row_from (row : list K) (j : nat) (cs : list (counter K)) :
  j + length row <= length cs ->
  exists cs', try_fold (fun cs p => bump_at cs p.1 p.2) cs (imap (fun i x => (i + j, x)) row)
    = Some cs' /\ length cs' = length cs /\
    forall i, cs' !! i = if decide (j <= i) then
        match row !! (i - j) with Some k => bump k <$> cs !! i | None => cs !! i end
      else cs !! i.
Proof.
  revert j cs. induction row as [|k row IH]; intros j cs Hl; simpl in *.
  - exists cs. split; [done|]. split; [done|]. intros i. by case_decide.
  - destruct (lookup_lt_is_Some_2 cs j) as [c Hc]; [lia|].
    rewrite (bump_at_ok cs j k c Hc). cbn [mbind option_bind].
    erewrite (imap_ext _ (fun i x => (i + S j, x))) by (intros; simpl; f_equal; lia).
    destruct (IH (S j) (<[j:=bump k c]> cs)) as (cs' & -> & Hl' & Hi).
    { rewrite insert_length. lia. }
    exists cs'. split; [done|]. rewrite insert_length in Hl'. split; [done|].
    intros i. rewrite Hi. destruct (decide (S j <= i)).
    + rewrite decide_True by lia. rewrite list_lookup_insert_ne by lia.
      replace (i - j) with (S (i - S j)) by lia. done.
    + destruct (decide (j <= i)).
      * replace i with j by lia. rewrite Nat.sub_diag. simpl.
        rewrite list_lookup_insert by lia. by rewrite Hc.
      * by rewrite list_lookup_insert_ne by lia.
Qed.

Lemma count_row_ok cs row : length row <= length cs ->
  exists cs', count_row cs row = Some cs' /\ length cs' = length cs /\
    forall i, cs' !! i = match row !! i with Some k => bump k <$> cs !! i | None => cs !! i end.
Proof.
  intros Hl. destruct (count_row_from row 0 cs) as (cs' & E & Hl' & Hi); [lia|].
  exists cs'. split; [|split; [done|]].
  - unfold count_row. rewrite <- E. f_equal. apply imap_ext. intros. f_equal. simpl. lia.
  - intros i. rewrite Hi, decide_True, Nat.sub_0_r by lia. done.
Qed.

Lemma count_row_panic cs row : length cs < length row -> count_row cs row = None.
Proof.
  unfold count_row.
  assert (G : forall j cs, j <= length cs -> length cs < j + length row ->
    try_fold (fun cs p => bump_at cs p.1 p.2) cs (imap (fun i x => (i + j, x)) row) = None).
  { clear cs. induction row as [|k row IH]; intros j cs Hj Hl; simpl in *; [lia|].
    destruct (cs !! j) as [c|] eqn:Hc; [|by unfold bump_at; rewrite Hc].
    rewrite (bump_at_ok cs j k c Hc). cbn [mbind option_bind].
    erewrite (imap_ext _ (fun i x => (i + S j, x))) by (intros; simpl; f_equal; lia).
    apply IH; rewrite insert_length; [apply lookup_lt_Some in Hc; lia|lia]. }
  intros Hl. rewrite <- (G 0 cs); [|lia..]. f_equal. apply imap_ext. intros. f_equal. simpl. lia.
Qed.

Lemma try_fold_app {A S} (f : S -> A -> option S) s (l1 l2 : list A) :
  try_fold f s (l1 ++ l2) = s' ← try_fold f s l1; try_fold f s' l2.
Proof.
  revert s. induction l1 as [|x l1 IH]; intros s; simpl; [done|].
  destruct (f s x); simpl; [apply IH|done].
Qed.

(** Column [i] of the rows that are long enough. *)
Definition column (i : nat) (rows : list (list K)) : list K := omap (fun row => row !! i) rows.

Lemma count_rows (rows : list (list K)) (n : nat) :
  Forall (fun row => length row <= n) rows ->
  try_fold count_row (replicate n []) rows
    = Some ((fun i => counted (column i rows)) <$> seq 0 n).
Proof.
  induction rows as [|row rows IH] using rev_ind; intros Hf.
  - simpl. f_equal. apply list_eq. intros i. rewrite list_lookup_fmap.
    destruct (decide (i < n)).
    + rewrite lookup_replicate_2, lookup_seq_lt by done. done.
    + rewrite lookup_seq_ge by lia. apply lookup_ge_None. rewrite replicate_length. lia.
  - apply Forall_app in Hf as [Hf Hr]. apply Forall_cons in Hr as [Hr _].
    rewrite try_fold_app, IH by done. cbn [mbind option_bind].
    cbn [try_fold].
    set (cs := (fun i => counted (column i rows)) <$> seq 0 n) in *.
    assert (Hcs : length cs = n) by (unfold cs; by rewrite fmap_length, seq_length).
    destruct (count_row_ok cs row) as (cs' & -> & Hl' & Hi); [lia|]. simpl. f_equal.
    apply list_eq. intros i. rewrite Hi. unfold cs. rewrite !list_lookup_fmap.
    destruct (decide (i < n)).
    2:{ rewrite lookup_seq_ge by lia. simpl. by destruct (row !! i). }
    rewrite lookup_seq_lt by done. simpl. unfold column. rewrite omap_app. simpl.
    destruct (row !! i) as [k|]; simpl; [|by rewrite app_nil_r].
    unfold counted. rewrite fold_left_app. done.
Qed.

Lemma mapM_imap_pair {A B} (f : nat -> A -> option B) (l : list A) :
  mapM (fun p => f p.1 p.2) (imap pair l) = mapM (fun p => p) (imap f l).
Proof.
  revert f. induction l as [|x l IH]; intros f; simpl; [done|].
  destruct (f 0 x); simpl; [|done].
  assert (E : imap (λ i x, (S i, x)) l = (fun p => (S p.1, p.2)) <$> imap pair l).
  { rewrite fmap_imap. done. }
  replace (imap (pair ∘ S) l) with (imap (fun i (x : A) => (S i, x)) l) by done.
  rewrite E.
  assert (E2 : forall l' : list (nat * A), mapM (λ p, f p.1 p.2) ((fun p => (S p.1, p.2)) <$> l')
     = mapM (fun p => f (S p.1) p.2) l').
  { induction l' as [|p l' IH']; [done|]. simpl. by rewrite <- IH'. }
  rewrite E2. rewrite (IH (fun i => f (S i))). done.
Qed.

Lemma most_frequent_all_spec order rows n :
  is_map_order order ->
  match most_frequent_all order ((fun i => counted (column i rows)) <$> seq 0 n) with
  | Some ks => length ks = n /\ forall i k, ks !! i = Some k -> is_mode k (column i rows)
  | None => exists i, i < n /\ column i rows = []
  end.
Proof.
  intros Ho. unfold most_frequent_all.
  rewrite (mapM_imap_pair (fun i c => most_frequent (order i) c)).
  destruct (mapM _ _) as [ks|] eqn:E.
  - apply mapM_Some in E. split.
    + apply Forall2_length in E. by rewrite imap_length, fmap_length, seq_length in E.
    + intros i k Hk. destruct (Forall2_lookup_r _ _ _ _ _ E Hk) as (x & Hx & Hxk).
      rewrite list_lookup_imap, list_lookup_fmap in Hx.
      assert (i < n).
      { destruct (decide (i < n)); [done|]. rewrite lookup_seq_ge in Hx by lia. done. }
      rewrite lookup_seq_lt in Hx by done. simpl in Hx. injection Hx as <-.
      pose proof (most_frequent_spec (order i) (column i rows) (Ho i)) as Hm.
      by rewrite Hxk in Hm.
  - apply mapM_None in E. apply Exists_exists in E as (x & Hx & ->).
    apply elem_of_list_lookup in Hx as [i Hx].
    rewrite list_lookup_imap, list_lookup_fmap in Hx.
    assert (i < n).
    { destruct (decide (i < n)); [done|]. rewrite lookup_seq_ge in Hx by lia. done. }
    rewrite lookup_seq_lt in Hx by done. simpl in Hx. injection Hx as Hx.
    exists i. split; [done|].
    pose proof (most_frequent_spec (order i) (column i rows) (Ho i)) as Hm.
    by rewrite Hx in Hm.
Qed.

(** Swapping the sums: a row-wise mode maximises the total agreement. *)
Lemma filter_sum {A} (P : A -> Prop) `{!forall x, Decision (P x)} (l : list A) :
  length (filter P l) = sum_list ((fun x => if decide (P x) then 1 else 0) <$> l).
Proof. induction l as [|x l IH]; [done|]. rewrite filter_cons. case_decide; simpl; case_decide; simpl; auto; done. Qed.

Lemma sum_cons {A} (f : A -> nat) (x : A) (l : list A) : sum_list (f <$> x :: l) = f x + sum_list (f <$> l).
Proof. done. Qed.

Lemma sum_swap {A B} (f : A -> B -> nat) (l : list A) (l' : list B) :
  sum_list ((fun x => sum_list (f x <$> l')) <$> l)
  = sum_list ((fun y => sum_list ((fun x => f x y) <$> l)) <$> l').
Proof.
  induction l as [|x l IH].
  - induction l' as [|y l' IH']; [done|]. by rewrite sum_cons, <- IH'.
  - rewrite sum_cons, IH. clear IH. induction l' as [|y l' IH']; [done|].
    rewrite !sum_cons, <- IH'. lia.
Qed.

Lemma fmap_ext_in {A B} (f g : A -> B) (l : list A) :
  (forall x, x ∈ l -> f x = g x) -> f <$> l = g <$> l.
Proof. intros Hf. apply list_fmap_ext. intros i x Hx. apply Hf. by eapply elem_of_list_lookup_2. Qed.

Lemma sum_list_mono {A} (f g : A -> nat) (l : list A) :
  (forall x, x ∈ l -> f x <= g x) -> sum_list (f <$> l) <= sum_list (g <$> l).
Proof.
  induction l as [|x l IH]; intros H; [done|]. rewrite !sum_cons.
  pose proof (H x (elem_of_list_here _ _)).
  feed pose proof IH; [intros; apply H; by right|]. lia.
Qed.
End Counting.

(** ** The two centroids *)
Section Centroids.
Context {T : Type} `{!EqDecision T}.

Lemma count_hashes_row cs (sig : list T) : count_hashes cs sig = count_row cs sig.
Proof. done. Qed.

Lemma try_fold_ext_in {A S} (f g : S -> A -> option S) s l :
  (forall s x, x ∈ l -> f s x = g s x) -> try_fold f s l = try_fold g s l.
Proof.
  revert s. induction l as [|x l IH]; intros s Hf; simpl; [done|].
  rewrite Hf by (by left). destruct (g s x); simpl; [|done].
  apply IH. intros. apply Hf. by right.
Qed.

Lemma slice_nth_band (sig : list T) nb bw i : nb * bw <= length sig -> i < nb ->
  slice sig (i * bw) ((i + 1) * bw) = Some (nth_band bw i sig).
Proof.
  intros Hl Hi. unfold slice, nth_band. rewrite decide_True by nia.
  f_equal. f_equal. lia.
Qed.

Lemma count_bands_row nb bw cs (sig : list T) : nb * bw <= length sig ->
  count_bands nb bw cs sig = count_row cs ((fun i => nth_band bw i sig) <$> seq 0 nb).
Proof.
  intros Hl. unfold count_bands, count_row. rewrite imap_fmap.
  assert (G : forall n j cs, j + n <= nb ->
    try_fold (fun cs i => b ← slice sig (i * bw) ((i + 1) * bw); bump_at cs i b) cs (seq j n)
    = try_fold (fun cs p => bump_at cs p.1 p.2) cs
        (imap (fun i x => (i + j, nth_band bw x sig)) (seq j n))).
  { clear cs. induction n as [|n IH]; intros j cs Hn; simpl; [done|].
    rewrite (slice_nth_band sig nb bw j) by lia. simpl.
    destruct (bump_at cs j _); simpl; [|done]. rewrite IH by lia. f_equal.
    apply imap_ext. intros. unfold compose. f_equal. lia. }
  rewrite G by lia. f_equal. apply imap_ext. intros. unfold compose. f_equal. lia.
Qed.

Lemma column_full {K} (i : nat) (rows : list (list K)) (f : list K -> K) :
  (forall row, row ∈ rows -> row !! i = Some (f row)) -> column i rows = f <$> rows.
Proof.
  unfold column. induction rows as [|row rows IH]; intros H; simpl; [done|].
  rewrite (H row) by (by left). f_equal. apply IH. intros. apply H. by right.
Qed.

Lemma try_fold_fmap {A B S} (f : S -> B -> option S) (g : A -> B) s l :
  try_fold f s (g <$> l) = try_fold (fun s x => f s (g x)) s l.
Proof.
  revert s. induction l as [|x l IH]; intros s; simpl; [done|].
  destruct (f s (g x)); simpl; [apply IH|done].
Qed.

Lemma concat_lookup_band (ks : list (list T)) bw i b :
  Forall (fun b => length b = bw) ks -> ks !! i = Some b -> nth_band bw i (concat ks) = b.
Proof.
  revert i. induction ks as [|k ks IH]; intros i Hf Hi; [done|].
  apply Forall_cons in Hf as [Hk Hf]. destruct i as [|i]; simpl in *.
  - injection Hi as ->. unfold nth_band. simpl. rewrite drop_0. by rewrite take_app_alt.
  - rewrite <- (IH i Hf Hi). unfold nth_band. simpl.
    rewrite <- drop_drop, (drop_app_alt k) by done. done.
Qed.

Lemma length_concat_bands (ks : list (list T)) bw :
  Forall (fun b => length b = bw) ks -> length (concat ks) = length ks * bw.
Proof.
  induction 1 as [|k ks Hk _ IH]; [done|]. simpl. rewrite app_length, IH. lia.
Qed.

Lemma nth_band_length bw i nb (s : list T) : nb * bw <= length s -> i < nb ->
  length (nth_band bw i s) = bw.
Proof. intros Hl Hi. unfold nth_band. rewrite take_length, drop_length. nia. Qed.

Lemma band_centroid_spec order (sigs : list (list T)) nb bw :
  is_map_order order -> Forall (fun s => nb * bw <= length s) sigs ->
  match minhash_band_centroid_from_refs order sigs nb bw with
  | Some c => length c = nb * bw /\
      forall i, i < nb -> is_mode (nth_band bw i c) (nth_band bw i <$> sigs)
  | None => 0 < nb /\ sigs = []
  end.
Proof.
  intros Ho Hf. unfold minhash_band_centroid_from_refs.
  set (row := fun s : list T => (fun i => nth_band bw i s) <$> seq 0 nb).
  rewrite (try_fold_ext_in _ (fun cs s => count_row cs (row s))).
  2:{ intros cs s Hs. apply count_bands_row. rewrite Forall_forall in Hf. auto. }
  rewrite <- try_fold_fmap, count_rows.
  2:{ apply Forall_fmap, Forall_true. intros s. unfold compose, row.
      by rewrite fmap_length, seq_length. }
  cbn [mbind option_bind].
  assert (Hcol : forall i, i < nb -> column i (row <$> sigs) = nth_band bw i <$> sigs).
  { intros i Hi. unfold column. clear Hf. induction sigs as [|s sigs IH]; simpl; [done|].
    unfold row at 1. rewrite list_lookup_fmap, lookup_seq_lt by done. simpl. by f_equal. }
  pose proof (most_frequent_all_spec order (row <$> sigs) nb Ho) as Hm.
  destruct (most_frequent_all order _) as [ks|]; cbn [mbind option_bind].
  - destruct Hm as [Hl Hm].
    assert (Hb : Forall (fun b => length b = bw) ks).
    { apply Forall_lookup. intros i b Hib. destruct (Hm i b Hib) as [Hin _].
      assert (i < nb) by (apply lookup_lt_Some in Hib; lia).
      rewrite Hcol in Hin by done. apply elem_of_list_fmap in Hin as (s & -> & Hs).
      rewrite Forall_forall in Hf. by apply (nth_band_length bw i nb); auto. }
    split.
    { rewrite (length_concat_bands _ bw) by done. lia. }
    intros i Hi. destruct (lookup_lt_is_Some_2 ks i) as [b Hib]; [lia|].
    rewrite (concat_lookup_band ks bw i b) by done. rewrite <- Hcol by done. by apply Hm.
  - destruct Hm as (i & Hi & Hc). rewrite Hcol in Hc by done. split; [lia|].
    by apply fmap_nil_inv in Hc.
Qed.

Lemma band_total nb bw (x : list T) (sigs : list (list T)) :
  sum_list ((fun s => band_agreements nb bw x s) <$> sigs)
  = sum_list ((fun i => occurrences (nth_band bw i x) (nth_band bw i <$> sigs)) <$> seq 0 nb).
Proof.
  unfold band_agreements.
  rewrite (fmap_ext_in _ (fun s => sum_list ((fun i =>
     if decide (nth_band bw i x = nth_band bw i s) then 1 else 0) <$> seq 0 nb)) sigs).
  2:{ intros. apply filter_sum. }
  rewrite (sum_swap (fun s i => if decide (nth_band bw i x = nth_band bw i s) then 1 else 0)).
  f_equal. apply fmap_ext_in. intros i _.
  unfold occurrences. rewrite filter_sum, <- list_fmap_compose. f_equal.
  apply fmap_ext_in. intros s _. unfold compose. simpl.
  case_decide; case_decide; congruence.
Qed.

Lemma band_centroid_best order (sigs : list (list T)) nb bw c x :
  is_map_order order -> Forall (fun s => nb * bw <= length s) sigs ->
  minhash_band_centroid_from_refs order sigs nb bw = Some c ->
  sum_list ((fun s => band_agreements nb bw x s) <$> sigs)
  <= sum_list ((fun s => band_agreements nb bw c s) <$> sigs).
Proof.
  intros Ho Hf Hc. pose proof (band_centroid_spec order sigs nb bw Ho Hf) as Hs.
  rewrite Hc in Hs. destruct Hs as [_ Hm]. rewrite !band_total.
  apply sum_list_mono. intros i [_ Hi]%elem_of_seq. by apply Hm.
Qed.

Lemma hash_centroid_spec order (sigs : list (list T)) :
  is_map_order order ->
  match minhash_centroid order sigs with
  | Some c => exists s0, sigs !! 0 = Some s0 /\ length c = length s0 /\
      Forall (fun s => length s <= length s0) sigs /\
      forall i x, c !! i = Some x -> is_mode x (column i sigs)
  | None => sigs = [] \/ exists s0, sigs !! 0 = Some s0 /\ Exists (fun s => length s0 < length s) sigs
  end.
Proof.
  intros Ho. unfold minhash_centroid. destruct sigs as [|s0 sigs']; [by left|].
  cbn [lookup list_lookup mbind option_bind]. set (sigs := s0 :: sigs').
  destruct (decide (Forall (fun s => length s <= length s0) sigs)) as [Hf|Hf].
  - rewrite (try_fold_ext_in _ count_row) by done. rewrite count_rows by done.
    cbn [mbind option_bind].
    pose proof (most_frequent_all_spec order sigs (length s0) Ho) as Hm.
    destruct (most_frequent_all order _) as [c|].
    + destruct Hm as [Hl Hm]. exists s0. auto.
    + destruct Hm as (i & Hi & Hc). unfold sigs, column in Hc. simpl in Hc.
      destruct (lookup_lt_is_Some_2 s0 i Hi) as [x Hx]. by rewrite Hx in Hc.
  - apply not_Forall_Exists in Hf; [|apply _].
    assert (G : forall (l : list (list T)) cs, Exists (fun s => ~ length s <= length s0) l ->
       length cs = length s0 -> try_fold count_hashes cs l = None).
    { induction l as [|s l IH]; intros cs He Hl; simpl; [by inversion He|].
      destruct (decide (length s <= length cs)) as [Hle|Hgt].
      - destruct (count_row_ok cs s Hle) as (cs' & E & Hl' & _).
        change (count_hashes cs s) with (count_row cs s). rewrite E. simpl.
        apply IH; [|congruence]. inversion He; [lia|done].
      - change (count_hashes cs s) with (count_row cs s).
        rewrite count_row_panic by lia. done. }
    rewrite G by (done || apply replicate_length). right. exists s0. split; [done|].
    eapply Exists_impl; [exact Hf|]. simpl. lia.
Qed.

Lemma agreements_sum (x s : list T) :
  agreements x s = sum_list ((fun i => if decide (x !! i = s !! i) then 1 else 0) <$> seq 0 (length x)).
Proof. unfold agreements. apply filter_sum. Qed.

Lemma hash_centroid_best order n (sigs : list (list T)) :
  is_map_order order -> sigs ≠ [] -> Forall (fun s => length s = n) sigs ->
  exists c, minhash_centroid order sigs = Some c /\ length c = n /\
    (forall i x, c !! i = Some x -> exists s, s ∈ sigs /\ s !! i = Some x) /\
    forall x, length x = n ->
      sum_list ((fun s => agreements x s) <$> sigs) <= sum_list ((fun s => agreements c s) <$> sigs).
Proof.
  intros Ho Hne Hf. pose proof (hash_centroid_spec order sigs Ho) as Hs.
  assert (Hall : forall s, s ∈ sigs -> length s = n) by (by apply Forall_forall).
  destruct (minhash_centroid order sigs) as [c|].
  2:{ destruct Hs as [?|(s0 & Hs0 & He)]; [done|]. exfalso.
      apply Exists_exists in He as (s & Hin & Hlt).
      apply elem_of_list_lookup_2 in Hs0. rewrite !Hall in Hlt by done. lia. }
  destruct Hs as (s0 & Hs0 & Hl & _ & Hm).
  assert (Hn : length c = n) by (rewrite Hl; apply Hall; by eapply elem_of_list_lookup_2).
  exists c. split; [done|]. split; [done|]. split.
  { intros i x Hx. destruct (Hm i x Hx) as [Hin _]. unfold column in Hin.
    apply elem_of_list_omap in Hin as (s & Hs & Hsx). eauto. }
  assert (G : forall x, length x = n ->
    sum_list ((fun s => agreements x s) <$> sigs)
    = sum_list ((fun i => match x !! i with
                          | Some v => occurrences v (column i sigs) | None => 0 end) <$> seq 0 n)).
  { intros x Hx.
    rewrite (fmap_ext_in _ (fun s => sum_list ((fun i =>
      if decide (x !! i = s !! i) then 1 else 0) <$> seq 0 n)) sigs);
      [|intros; rewrite agreements_sum; by rewrite Hx].
    rewrite (sum_swap (fun (s : list T) i => if decide (x !! i = s !! i) then 1 else 0)).
    f_equal. apply fmap_ext_in. intros i Hi. apply elem_of_seq in Hi.
    destruct (lookup_lt_is_Some_2 x i) as [v Hv]; [lia|]. rewrite Hv.
    clear Hne Hf Hm Hs0. unfold column.
    induction sigs as [|s l IH]; [done|]. simpl.
    destruct (lookup_lt_is_Some_2 s i) as [w Hw]; [rewrite (Hall s) by (by left); lia|].
    rewrite Hw. rewrite occurrences_cons. unfold fmap in IH. rewrite IH.
    2:{ intros. apply Hall. by right. }
    f_equal. case_decide; case_decide; congruence. }
  intros x Hx. rewrite !G by done. apply sum_list_mono. intros i Hi. apply elem_of_seq in Hi.
  destruct (lookup_lt_is_Some_2 x i) as [v Hv]; [lia|].
  destruct (lookup_lt_is_Some_2 c i) as [w Hw]; [lia|].
  rewrite Hv, Hw. by apply Hm.
Qed.
End Centroids.

(** ** The index *)
Section Index.
Context {T : Type} `{!EqDecision T} {Id : Type} `{Countable Id}.

Definition stored_sigs (n : nat) (ops : list (op Id T)) (ids : list Id) : list (list T) :=
  omap (fun id => spec_map n ops !! id) ids.

Lemma index_centroid k bh nb bw th (ops : list (op Id T)) order ids :
  is_map_order order ->
  let sigs := stored_sigs (nb * bw) ops ids in
  match calculate_centroid order (after k bh nb bw th ops) ids with
  | Some c => length c = nb * bw /\ (nb = 0 \/ sigs ≠ []) /\
      (forall i, i < nb -> is_mode (nth_band bw i c) (nth_band bw i <$> sigs)) /\
      forall x, sum_list ((fun s => band_agreements nb bw x s) <$> sigs)
                <= sum_list ((fun s => band_agreements nb bw c s) <$> sigs)
  | None => 0 < nb /\ sigs = []
  end.
Proof.
  intros Ho sigs. unfold calculate_centroid.
  pose proof (after_inv k bh nb bw th ops) as HI.
  rewrite (inv_sigs _ _ _ _ _ _ _ HI), (inv_b _ _ _ _ _ _ _ HI), (inv_r _ _ _ _ _ _ _ HI).
  change (omap _ ids) with sigs.
  assert (Hf : Forall (fun s => nb * bw <= length s) sigs).
  { apply Forall_forall. intros s Hs. apply elem_of_list_omap in Hs as (x & _ & Hx).
    eapply (inv_size _ _ _ _ _ _ _ HI); eauto. }
  pose proof (band_centroid_spec order sigs nb bw Ho Hf) as Hs.
  destruct (minhash_band_centroid_from_refs order sigs nb bw) as [c|] eqn:E; [|done].
  destruct Hs as [Hl Hm]. split; [done|]. split.
  { destruct nb; [by left|right]. intros Hn. rewrite Hn in Hm.
    destruct (Hm 0) as [?%elem_of_nil _]; [lia|done]. }
  split; [done|]. intros x. by eapply band_centroid_best.
Qed.
End Index.
