(** The clusterers with a query index whose answers are groups. *)
From stdpp Require Import base list gmap.
From Coq Require Import NArith Reals Lra.
From Verif Require Import Base Par Float FloatFacts F64Facts Container MinHashIndex SpecIndex MinHashIndexFacts
  MinHashIndexFacts2 MinHashIndexThms SimilarityFacts SimilarityThms SerialClusterer SerialClustererFacts
  ParallelClusterer SpecParallel ParallelClustererSeparate ClusterIndexFacts SpecGroups.
Local Open Scope nat_scope.

Lemma filter_whole {A} (Q : A -> Prop) `{!forall x, Decision (Q x)} l : Forall Q l -> filter Q l = l.
Proof. induction 1; [done|]. rewrite filter_cons_True by done. by f_equal. Qed.

Section Groups.
Context {P : Type} `{Countable P}.
Context (query : P -> option (list P)) (points : list P).
Context (Hg : grouped query points).
(** All members of the groups are free. *)
Context (free : P -> Prop) `{!forall x, Decision (free x)}.
Context (Hfree : forall p f x, p ∈ points -> query p = Some f -> x ∈ f -> free x).

Definition seeds (own : list (list P)) : Prop := forall i c, own !! i = Some c ->
  let before := concat (take i own) in
  exists p f, p ∈ points /\ p ∉ before /\ query p = Some f /\
    c = filter (fun x => free x /\ x ∉ before) f.

Lemma in_concat_take (own : list (list P)) i x :
  x ∈ concat (take i own) <-> exists j c, j < i /\ own !! j = Some c /\ x ∈ c.
Proof.
  rewrite elem_of_list_In, in_concat. split.
  - intros (c & Hc & Hx). apply elem_of_list_In in Hc, Hx.
    apply elem_of_list_lookup in Hc as [j Hj]. apply lookup_take_Some in Hj as [Hj Hlt]. eauto.
  - intros (j & c & Hlt & Hj & Hx). exists c. split; [|by apply elem_of_list_In].
    apply elem_of_list_In, elem_of_list_lookup. exists j. by apply lookup_take_Some.
Qed.

Lemma seeds_whole own : seeds own -> forall i c, own !! i = Some c ->
  exists p, p ∈ points /\ query p = Some c.
Proof.
  intros Hs i. induction (lt_wf i) as [i _ IH]. intros c Hc.
  destruct (Hs i c Hc) as (p & f & Hp & Hn & Hf & ->). exists p. split; [done|].
  rewrite Hf. f_equal. symmetry. apply filter_whole. apply Forall_forall.
  intros x Hx. split; [by eapply Hfree|]. intros (j & d & Hj & Hd & Hxd)%in_concat_take.
  destruct (IH j Hj d Hd) as (q & Hq & Hqd).
  destruct (proj2 Hg p q f d Hp Hq Hf Hqd) as [Hpf|Hdis]; [|by eapply Hdis].
  apply Hn, in_concat_take. exists j, d. split; [done|]. split; [done|]. rewrite <- Hpf.
  destruct (proj1 Hg p Hp) as (f' & Hf' & _ & Hin). congruence.
Qed.

(** If moreover every point is in a cluster or has too few free points left, the clusters are the
    groups. *)
Lemma seeds_all own least :
  seeds own -> NoDup (concat own) -> (forall c, c ∈ own -> least <= length c) -> 0 < least ->
  (forall p f, p ∈ points -> query p = Some f -> p ∈ concat own \/
     ((forall x, x ∈ f -> x ∉ concat own) -> length f < least)) ->
  all_groups query points least own.
Proof.
  intros Hs Hn Hl Hpos Hmax. split; [done|]. 
  assert (Hw : forall c, c ∈ own -> exists p, p ∈ points /\ query p = Some c).
  { intros c [i Hi]%elem_of_list_lookup. by eapply seeds_whole. }
  split.
  { intros c Hc. destruct (Hw c Hc) as (p & ? & ?). exists p. auto. }
  intros p f Hp Hf Hlf.
  assert (Hhit : exists x, x ∈ f /\ x ∈ concat own).
  { destruct (Hmax p f Hp Hf) as [Hin|Hlt].
    - exists p. split; [|done]. destruct (proj1 Hg p Hp) as (f' & Hf' & _ & ?). congruence.
    - destruct (decide (Exists (fun x => x ∈ concat own) f)) as [(x & Hx & ?)%Exists_exists|He]; [by exists x|].
      exfalso. apply not_Exists_Forall in He; [|apply _]. rewrite Forall_forall in He.
      specialize (Hlt He). lia. }
  destruct Hhit as (x & Hx & Hxo). apply elem_of_list_In, in_concat in Hxo as (c & Hc & Hxc).
  apply elem_of_list_In in Hc, Hxc. exists c. split; [done|].
  destruct (Hw c Hc) as (q & Hq & Hqc).
  destruct (proj2 Hg q p c f Hq Hp Hqc Hf) as [?|Hd]; [done|]. exfalso. by eapply Hd.
Qed.
End Groups.

Section Same.
Context {P : Type} `{!EqDecision P}.

Lemma group_unique (own : list (list P)) c d x : NoDup (concat own) ->
  c ∈ own -> d ∈ own -> x ∈ c -> x ∈ d -> c = d.
Proof.
  induction own as [|e own IH]; [by intros _ ?%elem_of_nil|].
  cbn. intros (Hn1 & Hdis & Hn2)%NoDup_app Hc Hd Hxc Hxd.
  assert (Hin : forall e', e' ∈ own -> x ∈ e' -> x ∈ concat own).
  { intros e' He' Hx. apply elem_of_list_In, in_concat. exists e'.
    split; by apply elem_of_list_In. }
  apply elem_of_cons in Hc as [->|Hc]; apply elem_of_cons in Hd as [->|Hd]; [done| | |auto].
  - exfalso. eapply Hdis; [exact Hxc|]. eauto.
  - exfalso. eapply Hdis; [exact Hxd|]. eauto.
Qed.

(** Two lists of nonempty disjoint lists, each element of the one a permutation of one of the
    other. *)
Lemma same_groups_intro (own own' : list (list P)) :
  NoDup (concat own) -> NoDup (concat own') ->
  (forall c, c ∈ own -> c <> []) -> (forall c, c ∈ own' -> c <> []) ->
  (forall c, c ∈ own -> exists d, d ∈ own' /\ c ≡ₚ d) ->
  (forall d, d ∈ own' -> exists c, c ∈ own /\ c ≡ₚ d) -> same_groups own own'.
Proof.
  revert own'. induction own as [|c own IH]; intros own' Hn Hn' He He' H1 H2.
  - destruct own' as [|d own'].
    + exists []. split; [done|constructor].
    + exfalso. destruct (H2 d) as (c & Hc & _); [left|]. by apply elem_of_nil in Hc.
  - destruct (H1 c) as (d & Hd & Hcd); [left|].
    apply elem_of_Permutation in Hd as [rest Hp].
    pose proof Hn as Hn0. cbn in Hn. apply NoDup_app in Hn as (_ & Hdis & Hn).
    assert (Hcon : concat own' ≡ₚ d ++ concat rest).
    { change (d ++ concat rest) with (concat (d :: rest)). by rewrite Hp. }
    rewrite Hcon in Hn'. apply NoDup_app in Hn' as (_ & Hdis' & Hn').
    assert (Hmem : forall (l : list (list P)) e x, e ∈ l -> x ∈ e -> x ∈ concat l).
    { intros l e x Hel Hx. apply elem_of_list_In, in_concat. exists e. split; by apply elem_of_list_In. }
    destruct (IH rest) as (l & Hl & HF).
    + done.
    + done.
    + intros e Hel. apply He. by right.
    + intros e Hel. apply He'. rewrite Hp. by right.
    + intros e Hel. destruct (H1 e) as (g & Hgin & Heg); [by right|].
      exists g. split; [|done]. rewrite Hp in Hgin. apply elem_of_cons in Hgin as [->|]; [|done].
      exfalso. destruct e as [|x e]; [by apply (He []); [right|]|].
      apply (Hdis x).
      * rewrite Hcd, <- Heg. left.
      * eapply Hmem; [exact Hel|left].
    + intros g Hgin. destruct (H2 g) as (e & Hel & Heg); [rewrite Hp; by right|].
      exists e. split; [|done]. apply elem_of_cons in Hel as [->|]; [|done].
      exfalso. destruct g as [|x g]; [apply (He' []); [rewrite Hp; by right|done]|].
      apply (Hdis' x).
      * rewrite <- Hcd, Heg. left.
      * eapply Hmem; [exact Hgin|left].
    + exists (d :: l). split; [by rewrite Hl, Hp|]. by constructor.
Qed.

(** Two sets of groups from the same points, with answers in other orders. *)
Lemma all_groups_same (query query' : P -> option (list P)) points points' least own own' :
  0 < least ->
  (forall p, p ∈ points <-> p ∈ points') ->
  (forall p f, p ∈ points -> query p = Some f -> exists f', query' p = Some f' /\ f ≡ₚ f') ->
  (forall p f', p ∈ points' -> query' p = Some f' -> exists f, query p = Some f /\ f ≡ₚ f') ->
  all_groups query points least own -> all_groups query' points' least own' ->
  same_groups own own'.
Proof.
  intros H0 Hp Hq Hq' (Hn & H1 & H2) (Hn' & H1' & H2').
  apply same_groups_intro; [done|done| | | |].
  - intros c Hc ->. destruct (H1 [] Hc) as (_ & _ & _ & Hl). cbn in Hl. lia.
  - intros c Hc ->. destruct (H1' [] Hc) as (_ & _ & _ & Hl). cbn in Hl. lia.
  - intros c Hc. destruct (H1 c Hc) as (p & Hin & Hqc & Hl).
    destruct (Hq p c Hin Hqc) as (f' & Hf' & Hperm).
    destruct (H2' p f') as (d & Hd & Hdf); [by apply Hp|done|by rewrite <- Hperm|].
    exists d. split; [done|]. by rewrite Hperm, Hdf.
  - intros d Hd. destruct (H1' d Hd) as (p & Hin & Hqd & Hl).
    destruct (Hq' p d Hin Hqd) as (f & Hf & Hperm).
    destruct (H2 p f) as (c & Hc & Hcf); [by apply Hp|done|by rewrite Hperm|].
    exists c. split; [done|]. by rewrite Hcf, Hperm.
Qed.
End Same.

Lemma run_threads_length {P} `{Countable P} (query : P -> option (list P)) min checks (l : list nat) s :
  length (threads (run_schedule query min checks s l)) = length (threads s).
Proof.
  revert s. induction l as [|i l IH]; intros s; [done|].
  change (run_schedule query min checks s (i :: l))
    with (run_schedule query min checks (system_step query min checks s i) l).
  rewrite IH. unfold system_step. destruct (undefined s); [done|].
  destruct (threads s !! i) as [t|]; [|done].
  destruct (thread_step _ _ _ (mem s) t) as [[m' t']|]; [|done]. cbn. apply insert_length.
Qed.

(** ** Exact duplicates *)
Lemma sim_ge_one {T} `{!EqDecision T} (x y : list T) : length x = length y -> 0 < length x ->
  (N.of_nat (length x) <= 2 ^ 53)%N -> f64_ge (sim x y) f64_one = true <-> x = y.
Proof.
  intros Hl Hpos Hn. split.
  - intros Hge. apply agreements_full; [done|].
    pose proof (agreements_le x y).
    destruct (decide (agreements x y = length x)) as [|Hne]; [done|exfalso].
    pose proof (ratio64_lt_one (N.of_nat (agreements x y)) (N.of_nat (length x))) as Hlt.
    rewrite !nat_N_Z in Hlt. specialize (Hlt ltac:(lia) ltac:(lia)).
    apply (good_leb 53 1024 _ _ _ _ one_good (sim_good x y Hpos Hn)) in Hge. lra.
  - intros <-. rewrite sim_refl by done. vm_compute. done.
Qed.

Section Duplicates.
Context {T : Type} `{!EqDecision T} {P : Type} `{Countable P} (kind : container_kind)
    (bh : list T -> N) (nb bw : nat) (ops : list (op P T)) (order : gset P -> list P).
Context (Ho : is_order order).
Notation m := (spec_map (nb * bw) ops).
Context (Hw : well_sized (nb * bw) m) (Hnb : 0 < nb) (Hbw : 0 < bw) (Hb : (N.of_nat (nb * bw) <= 2 ^ 53)%N).
Notation search := (ask kind bh nb bw f64_one ops order).

Lemma ask_duplicates p s : m !! p = Some s ->
  exists found, search p = Some found /\ NoDup found /\ forall x, x ∈ found <-> m !! x = Some s.
Proof.
  intros Hs. destruct (ask_total kind bh nb bw f64_one ops order Ho Hw p) as (found & Hf & Hn).
  exists found. split; [done|]. split; [done|]. intros x. pose proof (Hw _ _ Hs) as Hls. split.
  - intros Hx. destruct (ask_sound kind bh nb bw f64_one ops order Ho Hw p found x Hf Hx) as (sp & sx & Hsp & Hsx & Hge).
    rewrite Hs in Hsp. injection Hsp as <-. pose proof (Hw _ _ Hsx) as Hlx.
    apply sim_ge_one in Hge; [by rewrite <- Hge|lia|nia|by rewrite Hlx].
  - intros Hx. unfold ask, query_index_query in Hf. rewrite sigs_after, Hs in Hf.
    destruct (recall kind bh nb bw f64_one ops s Hw Hls) as (S & ES & Hrec).
    rewrite ES in Hf. cbn in Hf. injection Hf as <-. apply (elem_order order Ho).
    apply (Hrec x s 0); [done| |done|by intros j]. apply sim_ge_one; [done|nia|by rewrite Hls|done].
Qed.

Lemma duplicates_count p s found : m !! p = Some s -> search p = Some found ->
  length found = size (filter (fun kv => kv.2 = s) m).
Proof.
  intros Hs Hf. destruct (ask_duplicates p s Hs) as (f & Hf' & Hn & Hx).
  rewrite Hf in Hf'. injection Hf' as <-.
  set (m' := filter (fun kv : P * list T => kv.2 = s) m).
  change (size m') with (length (map_to_list m')).
  rewrite <- (fmap_length fst (map_to_list m')). apply Permutation_length.
  apply NoDup_Permutation; [done|apply NoDup_fst_map_to_list|]. intros x.
  rewrite Hx, elem_of_list_fmap. split.
  - intros E. exists (x, s). split; [done|]. apply elem_of_map_to_list.
    by apply map_filter_lookup_Some.
  - intros ([y t] & -> & E). apply elem_of_map_to_list, map_filter_lookup_Some in E as [E Et].
    cbn in *. by subst t.
Qed.

Lemma duplicates_grouped points : (forall p, p ∈ points -> is_Some (m !! p)) ->
  grouped search points.
Proof.
  intros Hp. split.
  - intros p Hin. destruct (Hp p Hin) as [s Hs]. destruct (ask_duplicates p s Hs) as (f & Hf & Hn & Hx).
    exists f. split; [done|]. split; [done|]. by apply Hx.
  - intros p q f g Hin Hin' Hf Hg'. destruct (Hp p Hin) as [s Hs]. destruct (Hp q Hin') as [t Ht].
    destruct (ask_duplicates p s Hs) as (f' & Hf' & Hn & Hx). destruct (ask_duplicates q t Ht) as (g' & Hg'' & Hn' & Hx').
    rewrite Hf in Hf'. injection Hf' as <-. rewrite Hg' in Hg''. injection Hg'' as <-.
    destruct (decide (s = t)) as [<-|Hne].
    + left. apply NoDup_Permutation; [done|done|]. intros x. by rewrite Hx, Hx'.
    + right. intros x Hxf Hxg. apply Hx in Hxf. apply Hx' in Hxg. congruence.
Qed.
End Duplicates.
