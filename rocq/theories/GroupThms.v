(** The clusterers with a query index whose answers are groups, from C43, C44, C46 and C64. *)
From stdpp Require Import base list gmap.
From Coq Require Import NArith.
From Verif Require Import Base Par Float Container MinHashIndex SpecIndex ExampleIndex SerialClusterer
  ParallelClusterer SpecParallel ClusterIndexFacts SpecGroups GroupFacts
  PropsSerialClusterer PropsParallelClusterer PropsParallelSeparate.
Local Open Scope nat_scope.

(** The serial clusterer returns exactly the groups of more than [min_cluster_size] points. *)
Lemma serial_groups {P} `{Countable P} (query : P -> option (list P)) (k : clusterer)
    (points : list P) (m : gmap P N) :
  grouped query points ->
  (forall p f x, p ∈ points -> query p = Some f -> x ∈ f -> m !! x = None) ->
  exists m' cs, run_cluster query k points m = ((m', Some cs), k) /\
    all_groups query points (S (min_cluster_size k)) (c_points <$> cs).
Proof.
  intros Hg Hfree.
  assert (Hq : forall p, p ∈ points -> exists found, query p = Some found /\ NoDup found).
  { intros p Hp. destruct (proj1 Hg p Hp) as (f & ? & ? & _). eauto. }
  destruct (C43_serial_clusters query k points m Hq) as (m' & cs & E & Hn & Hin & Hbig & Hout & Hseed).
  exists m', cs. split; [done|].
  assert (Hnone : forall x, x ∉ concat (c_points <$> cs) -> m' !! x = m !! x).
  { intros x Hx. apply Hout. intros c Hc Hxc. apply Hx. apply elem_of_list_In, in_concat.
    exists (c_points c). split; [|by apply elem_of_list_In].
    apply elem_of_list_In, elem_of_list_fmap. eauto. }
  apply (seeds_all query points Hg (fun x => m !! x = None) Hfree).
  - intros i c. rewrite list_lookup_fmap. intros (d & Hd & ->)%fmap_Some.
    destruct (Hseed i d Hd) as (p & f & Hp & _ & Hb & Hf & Hc). cbn zeta.
    rewrite <- fmap_take. exists p, f. done.
  - done.
  - intros c (d & -> & Hd)%elem_of_list_fmap. by apply Hbig.
  - lia.
  - intros p f Hp Hf. destruct (decide (p ∈ concat (c_points <$> cs))) as [|Hpc]; [by left|]. right.
    intros Hall. destruct (C44_serial_maximal query k points m m' cs k p f Hq E Hp Hf) as [[a Ha]|Hl].
    + rewrite (Hnone p Hpc) in Ha. destruct (proj1 Hg p Hp) as (f' & Hf' & _ & Hpf).
      rewrite (Hfree p f' p) in Ha by done. done.
    + rewrite filter_whole in Hl; [lia|]. apply Forall_forall. intros x Hx.
      rewrite (Hnone x (Hall x Hx)). by eapply Hfree.
Qed.

(** Its clusters depend neither on the order of the points, nor on how often they are given, nor
    on the iteration order of the answers. *)
Lemma serial_groups_order {P} `{Countable P} (query query' : P -> option (list P)) (k : clusterer)
    (points points' : list P) (m m1 m2 : gmap P N) cs1 cs2 k1 k2 :
  grouped query points ->
  (forall p f x, p ∈ points -> query p = Some f -> x ∈ f -> m !! x = None) ->
  (forall p, p ∈ points <-> p ∈ points') ->
  (forall p f, p ∈ points -> query p = Some f -> exists f', query' p = Some f' /\ f ≡ₚ f') ->
  run_cluster query k points m = ((m1, Some cs1), k1) ->
  run_cluster query' k points' m = ((m2, Some cs2), k2) ->
  same_groups (c_points <$> cs1) (c_points <$> cs2).
Proof.
  intros Hg Hfree Hp Hq E1 E2.
  assert (Hq' : forall p f', p ∈ points' -> query' p = Some f' -> exists f, query p = Some f /\ f ≡ₚ f').
  { intros p f' Hin Hf'. destruct (proj1 Hg p) as (f & Hf & _); [by apply Hp|].
    destruct (Hq p f) as (f2 & Hf2 & Hperm); [by apply Hp|done|].
    rewrite Hf' in Hf2. injection Hf2 as <-. eauto. }
  assert (Hg' : grouped query' points').
  { split.
    - intros p Hin. apply Hp in Hin. destruct (proj1 Hg p Hin) as (f & Hf & Hn & Hpf).
      destruct (Hq p f Hin Hf) as (f' & Hf' & Hperm). exists f'. split; [done|].
      rewrite <- Hperm. done.
    - intros p q f' g' Hip Hiq Hf' Hg'. destruct (Hq' p f' Hip Hf') as (f & Hf & Hpf).
      destruct (Hq' q g' Hiq Hg') as (g & Hgg & Hpg). apply Hp in Hip, Hiq.
      destruct (proj2 Hg p q f g Hip Hiq Hf Hgg) as [He|Hd].
      + left. by rewrite <- Hpf, <- Hpg.
      + right. intros x. rewrite <- Hpf, <- Hpg. apply Hd. }
  destruct (serial_groups query k points m Hg Hfree) as (m1' & cs1' & E1' & A1).
  destruct (serial_groups query' k points' m Hg') as (m2' & cs2' & E2' & A2).
  { intros p f' x Hin Hf' Hx. destruct (Hq' p f' Hin Hf') as (f & Hf & Hperm).
    apply Hp in Hin. eapply Hfree; [exact Hin|exact Hf|]. by rewrite Hperm. }
  rewrite E1 in E1'. rewrite E2 in E2'. injection E1' as -> -> ->. injection E2' as -> -> ->.
  eapply (all_groups_same query query' points points'); [|done..|exact A1|exact A2]. lia.
Qed.

(** One thread of the parallel clusterer returns the groups of at least [min] points. *)
Lemma single_groups {P} `{Countable P} (query : P -> option (list P)) (min : nat)
    (checks : bool) (m : memory P) (points : list P) :
  grouped query points ->
  (forall p f x, p ∈ points -> query p = Some f -> x ∈ f -> cells m !! x = None) ->
  exists (cs : list (N * list P)) k,
    (forall n, k <= n ->
      result (run_schedule query min checks (cluster_start query m points) (replicate n 0)) = Some cs) /\
    all_groups query points (Nat.max 1 min) cs.*2.
Proof.
  intros Hg Hfree.
  assert (Hq : forall p, p ∈ points -> exists found, query p = Some found /\ NoDup found).
  { intros p Hp. destruct (proj1 Hg p Hp) as (f & ? & ? & _). eauto. }
  destruct (C46_single_thread query min checks m points Hq)
    as (m' & cs & k & Hk & Hn & Hin & Hbig & Hout & Hseed & _ & _ & Hleft).
  exists cs, k. split; [intros n Hn'; by apply Hk|].
  assert (Hnone : forall x, x ∉ concat cs.*2 -> cells m' !! x = cells m !! x).
  { intros x Hx. apply Hout. intros a own Hc Hxc. apply Hx. apply elem_of_list_In, in_concat.
    exists own. split; [|by apply elem_of_list_In].
    apply elem_of_list_In, elem_of_list_fmap. by exists (a, own). }
  assert (Hs : seeds query points (fun x => cells m !! x = None) cs.*2).
  { intros i c. rewrite list_lookup_fmap. intros ([a own] & Hd & ->)%fmap_Some. cbn [snd].
    destruct (Hseed i a own Hd) as (_ & p & f & Hp & _ & Hb & Hf & Hc). cbn zeta.
    rewrite <- fmap_take. exists p, f. done. }
  apply (seeds_all query points Hg (fun x => cells m !! x = None) Hfree); [done|done| |lia|].
  - intros c Hc. pose proof Hc as ([a own] & -> & Hd)%elem_of_list_fmap. cbn [snd] in *.
    destruct (Hbig a own Hd) as [Hl _].
    apply elem_of_list_lookup in Hc as [i Hi].
    destruct (seeds_whole query points Hg (fun x => cells m !! x = None) Hfree _ Hs i own Hi) as (p & Hp & Hf).
    destruct (proj1 Hg p Hp) as (f & Hf' & _ & Hpf). rewrite Hf in Hf'. injection Hf' as <-.
    destruct own; [by apply elem_of_nil in Hpf|]. cbn in *. lia.
  - intros p f Hp Hf. destruct (decide (p ∈ concat cs.*2)) as [|Hpc]; [by left|]. right.
    intros Hall. destruct (proj1 Hg p Hp) as (f' & Hf' & _ & Hpf).
    rewrite Hf in Hf'. injection Hf' as <-.
    assert (Hpn : cells m' !! p = None) by (rewrite (Hnone p Hpc); by eapply Hfree).
    assert (Hw : filter (fun x => cells m' !! x = None) f = f).
    { apply filter_whole, Forall_forall. intros x Hx. rewrite (Hnone x (Hall x Hx)). by eapply Hfree. }
    destruct (Hleft p f Hp Hf Hpn) as [Hl|Hl]; rewrite Hw in Hl.
    + subst f. by apply elem_of_nil in Hpf.
    + lia.
Qed.

(** Several threads: if the points of each group are in one chunk, every interleaving gives exactly
    the groups. *)
Lemma parallel_groups {P} `{Countable P} (query : P -> option (list P)) (min : nat) (checks : bool)
    (m0 : memory P) (chunks : list (list P)) (schedule : list nat) (cs : list (N * list P)) :
  grouped query (concat chunks) ->
  (forall p f x, p ∈ concat chunks -> query p = Some f -> x ∈ f -> cells m0 !! x = None) ->
  (forall i j ch ch' p q f g, i <> j -> chunks !! i = Some ch -> chunks !! j = Some ch' ->
     p ∈ ch -> q ∈ ch' -> query p = Some f -> query q = Some g -> ~ f ≡ₚ g) ->
  let s := run_schedule query min checks (System m0 (cluster_slice_start query <$> chunks) false) schedule in
  undefined s = false /\
  (result s = Some cs -> all_groups query (concat chunks) (Nat.max 1 min) cs.*2).
Proof.
  intros Hg Hfree Happart s.
  assert (Hin : forall i ch p, chunks !! i = Some ch -> p ∈ ch -> p ∈ concat chunks).
  { intros i ch p Hi Hp. apply elem_of_list_In, in_concat. exists ch.
    split; [by eapply elem_of_list_In, elem_of_list_lookup_2|by apply elem_of_list_In]. }
  assert (Hq : forall ch p, ch ∈ chunks -> p ∈ ch -> exists found, query p = Some found /\ NoDup found).
  { intros ch p [i Hi]%elem_of_list_lookup Hp.
    destruct (proj1 Hg p (Hin i ch p Hi Hp)) as (f & ? & ? & _). eauto. }
  assert (Hsep : forall i j ch ch' p q found x, i <> j -> chunks !! i = Some ch -> chunks !! j = Some ch' ->
    p ∈ ch -> query p = Some found -> x ∈ found ->
    q ∈ ch' -> x <> q /\ forall found', query q = Some found' -> x ∉ found').
  { intros i j ch ch' p q f x Hij Hi Hj Hp Hf Hx Hqc.
    destruct (proj1 Hg q (Hin j ch' q Hj Hqc)) as (g & Hgq & _ & Hqg).
    assert (Hd : forall x, x ∈ f -> x ∉ g).
    { destruct (proj2 Hg p q f g) as [He|Hd]; [eauto|eauto|done|done| |done].
      exfalso. by eapply (Happart i j ch ch' p q f g). }
    split.
    - intros ->. by eapply Hd.
    - intros g' Hg'. rewrite Hgq in Hg'. injection Hg' as <-. by apply Hd. }
  split.
  { exact (proj1 (C64_finishes query min checks m0 chunks Hq Hsep schedule)). }
  intros Hr.
  assert (Hcg : forall i ch, chunks !! i = Some ch -> grouped query ch).
  { intros i ch Hi. split.
    - intros p Hp. apply (proj1 Hg). eauto.
    - intros p q f g Hp Hqc. apply (proj2 Hg); eauto. }
  assert (Halone : forall i ch, chunks !! i = Some ch -> exists t, threads s !! i = Some t /\
     all_groups query ch (Nat.max 1 min) (clusters t).*2).
  { intros i ch Hi. destruct (C64_as_alone query min checks m0 chunks Hq Hsep schedule cs Hr i ch Hi)
      as (t & k1 & cs1 & Ht & E1 & Hk1).
    destruct (single_groups query min checks m0 ch (Hcg i ch Hi)) as (cs2 & k2 & Hk2 & Ha).
    { intros p f x Hp. eauto. }
    exists t. split; [done|]. rewrite E1.
    specialize (Hk1 (k1 + k2) ltac:(lia)). specialize (Hk2 (k1 + k2) ltac:(lia)).
    rewrite Hk1 in Hk2. by injection Hk2 as ->. }
  assert (Hcs : cs = concat (clusters <$> threads s)).
  { fold s in Hr. unfold result in Hr. destruct (_ && _)%bool; [|done]. by injection Hr as <-. }
  destruct (C64_clusters query min checks m0 chunks Hq Hsep schedule cs Hr) as [Hnd _].
  assert (Hlen : length (threads s) = length chunks).
  { unfold s. clear. rewrite run_threads_length. cbn. by rewrite fmap_length. }
  split; [done|]. split.
  - intros c ([a own] & -> & Hc)%elem_of_list_fmap. cbn [snd].
    rewrite Hcs in Hc. apply elem_of_list_In, in_concat in Hc as (l & Hl & Hc).
    apply elem_of_list_In in Hl, Hc. apply elem_of_list_fmap in Hl as (t & -> & Ht).
    apply elem_of_list_lookup in Ht as [i Ht].
    destruct (lookup_lt_is_Some_2 chunks i) as [ch Hch].
    { rewrite <- Hlen. by eapply lookup_lt_Some. }
    destruct (Halone i ch Hch) as (t' & Ht' & _ & H1 & _). rewrite Ht in Ht'. injection Ht' as <-.
    destruct (H1 own) as (p & Hp & Hf & Hb); [apply elem_of_list_fmap; by exists (a, own)|].
    exists p. split; [eauto|]. done.
  - intros p f Hp Hf Hb. apply elem_of_list_In, in_concat in Hp as (ch & Hch & Hp).
    apply elem_of_list_In in Hch, Hp. apply elem_of_list_lookup in Hch as [i Hi].
    destruct (Halone i ch Hi) as (t & Ht & _ & _ & H2). destruct (H2 p f Hp Hf Hb) as (c & Hc & Hperm).
    exists c. split; [|done]. apply elem_of_list_fmap in Hc as (y & -> & Hy).
    apply elem_of_list_fmap. exists y. split; [done|]. rewrite Hcs.
    apply elem_of_list_In, in_concat. exists (clusters t).
    split; [|by apply elem_of_list_In]. apply elem_of_list_In, elem_of_list_fmap.
    exists t. split; [done|]. by eapply elem_of_list_lookup_2.
Qed.

(** ** Exact duplicates *)
Section Duplicates.
Context {T : Type} `{!EqDecision T} {P : Type} `{Countable P} (kind : container_kind)
    (bh : list T -> N) (nb bw : nat) (ops : list (op P T)) (order : gset P -> list P).
Context (Ho : is_order order).
Notation m := (spec_map (nb * bw) ops).
Context (Hw : well_sized (nb * bw) m) (Hnb : 0 < nb) (Hbw : 0 < bw) (Hb : (N.of_nat (nb * bw) <= 2 ^ 53)%N).
Notation search := (fun p => order <$> query_index_query (container kind P) bh (after kind bh nb bw f64_one ops) p).

Lemma groups_duplicates points least own :
  (forall p, p ∈ points -> is_Some (m !! p)) -> all_groups search points least own ->
  duplicate_groups m points least own.
Proof.
  intros Hp (Hn & H1 & H2). split; [done|]. split.
  - intros c Hc. destruct (H1 c Hc) as (p & Hin & Hf & Hl). destruct (Hp p Hin) as [s Hs].
    exists p, s. destruct (ask_duplicates kind bh nb bw ops order Ho Hw Hnb Hbw Hb p s Hs) as (f & Hf' & _ & Hx).
    unfold ask in Hf'. rewrite Hf in Hf'. injection Hf' as <-. done.
  - intros p s Hin Hs Hl.
    destruct (ask_duplicates kind bh nb bw ops order Ho Hw Hnb Hbw Hb p s Hs) as (f & Hf & _ & Hx).
    destruct (H2 p f Hin Hf) as (c & Hc & Hperm).
    { by rewrite (duplicates_count kind bh nb bw ops order Ho Hw Hnb Hbw Hb p s f Hs Hf). }
    exists c. split; [done|]. rewrite Hperm. by apply Hx.
Qed.

Lemma serial_duplicates (k : clusterer) points :
  (forall p, p ∈ points -> is_Some (m !! p)) ->
  exists cells cs, run_cluster search k points ∅ = ((cells, Some cs), k) /\
    duplicate_groups m points (S (min_cluster_size k)) (c_points <$> cs).
Proof.
  intros Hp. pose proof (duplicates_grouped kind bh nb bw ops order Ho Hw Hnb Hbw Hb points Hp) as Hg.
  destruct (serial_groups search k points ∅ Hg) as (m' & cs & E & Ha); [intros; apply lookup_empty|].
  exists m', cs. split; [done|]. by apply groups_duplicates.
Qed.

Lemma parallel_duplicates (min : nat) (checks : bool) (seq : N) (chunks : list (list P)) (schedule : list nat) cs :
  (forall ch p, ch ∈ chunks -> p ∈ ch -> is_Some (m !! p)) ->
  (forall i j ch ch' p q, i <> j -> chunks !! i = Some ch -> chunks !! j = Some ch' ->
     p ∈ ch -> q ∈ ch' -> m !! p <> m !! q) ->
  let s := run_schedule search min checks (System (Memory ∅ ∅ seq) (cluster_slice_start search <$> chunks) false) schedule in
  undefined s = false /\
  (result s = Some cs -> duplicate_groups m (concat chunks) (Nat.max 1 min) cs.*2).
Proof.
  intros Hp Happart s.
  assert (Hp' : forall p, p ∈ concat chunks -> is_Some (m !! p)).
  { intros p Hin. apply elem_of_list_In, in_concat in Hin as (ch & Hch & Hin).
    apply elem_of_list_In in Hch, Hin. eauto. }
  pose proof (duplicates_grouped kind bh nb bw ops order Ho Hw Hnb Hbw Hb (concat chunks) Hp') as Hg.
  destruct (parallel_groups search min checks (Memory ∅ ∅ seq) chunks schedule cs Hg) as [Hu Hr].
  - intros. apply lookup_empty.
  - intros i j ch ch' p q f g Hij Hi Hj Hpi Hqj Hf Hgq Hperm.
    destruct (Hp ch p) as [sp Hsp]; [by eapply elem_of_list_lookup_2|done|].
    destruct (Hp ch' q) as [sq Hsq]; [by eapply elem_of_list_lookup_2|done|].
    destruct (ask_duplicates kind bh nb bw ops order Ho Hw Hnb Hbw Hb p sp Hsp) as (f' & Hf' & _ & Hx).
    destruct (ask_duplicates kind bh nb bw ops order Ho Hw Hnb Hbw Hb q sq Hsq) as (g' & Hg' & _ & Hy).
    unfold ask in Hf', Hg'. rewrite Hf in Hf'. rewrite Hgq in Hg'. injection Hf' as <-. injection Hg' as <-.
    apply (Happart i j ch ch' p q Hij Hi Hj Hpi Hqj). rewrite Hsq. apply Hy.
    rewrite <- Hperm. by apply Hx.
  - split; [done|]. intros E. apply groups_duplicates; [done|]. by apply Hr.
Qed.
End Duplicates.
