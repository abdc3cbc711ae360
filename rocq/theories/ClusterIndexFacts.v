(** A MinHash index as the query index of the clusterers (C68). *)
From stdpp Require Import base list gmap.
From Coq Require Import NArith Lia.
From Verif Require Import Base Par Float Container MinHashIndex SpecIndex ParFacts ContainerFacts SimilarityFacts MinHashIndexFacts
  MinHashIndexFacts2 MinHashIndexThms SerialClusterer SerialClustererFacts.
Local Open Scope nat_scope.

Section Agree.
Context {T : Type} `{!EqDecision T}.
Implicit Types (x y z : list T).

Lemma filter_triangle {A} (Q R S : A -> Prop) `{!forall a, Decision (Q a), !forall a, Decision (R a), !forall a, Decision (S a)}
  (l : list A) : (forall a, Q a -> R a -> S a) ->
  length (filter Q l) + length (filter R l) <= length (filter S l) + length l.
Proof.
  intros HQR. induction l as [|a l IH]; [done|]. rewrite !filter_cons. cbn [length].
  destruct (decide (Q a)), (decide (R a)), (decide (S a)); cbn [length]; try lia. exfalso; auto.
Qed.
Lemma agree_triangle x y z : length x = length z -> length y = length z ->
  agreements x z + agreements y z <= agreements x y + length z.
Proof.
  intros Hx Hy. unfold agreements. rewrite Hy, Hx.
  pose proof (filter_triangle (fun i => x !! i = z !! i) (fun i => y !! i = z !! i) (fun i => x !! i = y !! i) (seq 0 (length z))) as Ht.
  rewrite seq_length in Ht. apply Ht. congruence.
Qed.
End Agree.

Section ClusterIndex.
Context {T : Type} `{!EqDecision T} {P : Type} `{Countable P} (kind : container_kind)
    (bh : list T -> N) (nb bw : nat) (th : f64) (ops : list (op P T)) (order : gset P -> list P).
Context (Ho : is_order order).
Notation m := (spec_map (nb * bw) ops).
Context (Hw : well_sized (nb * bw) m).
Definition ask (p : P) : option (list P) := order <$> query_index_query (container kind P) bh (after kind bh nb bw th ops) p.

Lemma elem_order S x : x ∈ order S <-> x ∈ S.
Proof. rewrite (Ho S). apply elem_of_elements. Qed.

Lemma ask_total p : exists found, ask p = Some found /\ NoDup found.
Proof.
  unfold ask, query_index_query. rewrite sigs_after. destruct (m !! p) as [s|] eqn:Es.
  - destruct (recall kind bh nb bw th ops s Hw (Hw _ _ Es)) as (S & -> & _).
    exists (order S). split; [done|]. rewrite (Ho S). apply NoDup_elements.
  - exists (order ∅). split; [done|]. rewrite (Ho ∅). apply NoDup_elements.
Qed.
Lemma ask_sound p found x : ask p = Some found -> x ∈ found ->
  exists sp sx, m !! p = Some sp /\ m !! x = Some sx /\ f64_ge (sim sx sp) th = true.
Proof.
  unfold ask, query_index_query. rewrite sigs_after. destruct (m !! p) as [s|] eqn:Es; cbn.
  - destruct (query _ bh _ s) as [S|] eqn:E; [|done]. intros [= <-]. rewrite elem_order. intros Hx.
    destruct (query_sound _ bh nb bw th _ _ _ _ _ (after_inv kind bh nb bw th ops) E Hx) as (sx & Hx' & _ & Hs).
    by exists s, sx.
  - intros [= <-]. rewrite elem_order. set_solver.
Qed.
Lemma ask_self p : 0 < nb -> 0 < bw -> (N.of_nat (nb * bw) <= 2 ^ 53)%N -> f64_ge f64_one th = true ->
  is_Some (m !! p) -> exists found, ask p = Some found /\ p ∈ found.
Proof.
  intros Hnb Hbw Hb Hth [s Hs]. destruct (self_query kind bh nb bw th ops p s Hw Hnb Hbw Hb Hth Hs) as (S & E & Hp).
  unfold ask, query_index_query. rewrite sigs_after, Hs, E. exists (order S). split; [done|]. by apply elem_order.
Qed.
Lemma ask_exact p sp found : clean (nb * bw) ops -> m !! p = Some sp -> ask p = Some found ->
  forall x, x ∈ found <-> expected_answer nb bw bh th m sp x.
Proof.
  intros Hc Hs. unfold ask, query_index_query. rewrite sigs_after, Hs.
  destruct (exact_answer kind bh nb bw th ops sp Hc (Hw _ _ Hs)) as (S & -> & Hx). intros [= <-] x.
  rewrite elem_order. apply Hx.
Qed.
Lemma answer_comm p q sp sq : m !! p = Some sp -> m !! q = Some sq ->
  expected_answer nb bw bh th m sp q <-> expected_answer nb bw bh th m sq p.
Proof.
  intros Hp Hq. pose proof (Hw _ _ Hp). pose proof (Hw _ _ Hq).
  unfold expected_answer. split; intros (s & Es & Hge & i & Hi & Eb).
  - rewrite Hq in Es. injection Es as <-. exists sp. split; [done|]. split; [by rewrite sim_comm by lia|]. by exists i.
  - rewrite Hp in Es. injection Es as <-. exists sq. split; [done|]. split; [by rewrite sim_comm by lia|]. by exists i.
Qed.

(** The clusters of the serial clusterer. *)
Definition seeded (cells : gmap P N) (points : list P) (cs : list (cluster P)) : Prop := forall i c, cs !! i = Some c ->
  let before := concat (c_points <$> take i cs) in
  exists p found, p ∈ points /\ cells !! p = None /\ p ∉ before /\ ask p = Some found /\
    c_points c = filter (fun x => cells !! x = None /\ x ∉ before) found.

Lemma in_take (cs : list (cluster P)) i x :
  x ∈ concat (c_points <$> take i cs) <-> exists j c, j < i /\ cs !! j = Some c /\ x ∈ c_points c.
Proof.
  change (x ∈ members (take i cs) <-> exists j c, j < i /\ cs !! j = Some c /\ x ∈ c_points c). rewrite elem_of_members. split.
  - intros (c & (j & Hj)%elem_of_list_lookup & Hx). exists j, c. apply lookup_take_Some in Hj. naive_solver.
  - intros (j & c & Hj & Hc & Hx). exists c. split; [|done]. apply elem_of_list_lookup. exists j. by rewrite lookup_take by done.
Qed.

Lemma cluster_seed (cells : gmap P N) points cs i c : seeded cells points cs -> cs !! i = Some c -> c_points c <> [] ->
  exists p sp, p ∈ points /\ cells !! p = None /\ m !! p = Some sp /\
    (forall x, x ∈ c_points c -> exists sx, m !! x = Some sx /\ f64_ge (sim sx sp) th = true) /\
    (forall x y sx sy, x ∈ c_points c -> y ∈ c_points c -> m !! x = Some sx -> m !! y = Some sy ->
       agreements sx sp + agreements sy sp <= agreements sx sy + nb * bw).
Proof.
  intros Hs Hc Hne. destruct (Hs i c Hc) as (p & found & Hp & Hf & _ & Ha & Ec).
  assert (Hin : forall x, x ∈ c_points c -> x ∈ found). { intros x. rewrite Ec. by intros [_ ?]%elem_of_list_filter. }
  assert (Hsp : exists sp, m !! p = Some sp).
  { destruct (c_points c) as [|x l] eqn:E; [done|]. destruct (ask_sound p found x Ha) as (sp & _ & ? & _); [apply Hin; left|]. by exists sp. }
  destruct Hsp as [sp Hsp]. exists p, sp. split; [done|]. split; [done|]. split; [done|]. split.
  - intros x Hx. destruct (ask_sound p found x Ha (Hin x Hx)) as (sp' & sx & E & E' & Hg). rewrite Hsp in E. injection E as <-. by exists sx.
  - intros x y sx sy _ _ Ex Ey. rewrite <- (Hw _ _ Hsp). apply agree_triangle; rewrite (Hw _ _ Hsp); by eapply Hw.
Qed.

Lemma duplicates_together (cells : gmap P N) points cs x y s : clean (nb * bw) ops -> seeded cells points cs ->
  m !! x = Some s -> m !! y = Some s -> cells !! x = None -> cells !! y = None ->
  forall i c, cs !! i = Some c -> x ∈ c_points c <-> y ∈ c_points c.
Proof.
  intros Hcl Hs Hx Hy Hcx Hcy i. induction i as [i IH] using lt_wf_ind. intros c Hc.
  destruct (Hs i c Hc) as (p & found & Hp & Hf & _ & Ha & Ec). rewrite Ec, !elem_of_list_filter.
  assert (E1 : x ∈ concat (c_points <$> take i cs) <-> y ∈ concat (c_points <$> take i cs)).
  { rewrite !in_take. split; intros (j & d & Hj & Hd & Hin); exists j, d; (split; [done|]); (split; [done|]); by apply (IH j Hj d Hd). }
  assert (E2 : x ∈ found <-> y ∈ found).
  { assert (Hmono : forall x y, m !! x = Some s -> m !! y = Some s -> x ∈ found -> y ∈ found); [|naive_solver].
    clear x y Hx Hy Hcx Hcy IH Hc Ec E1. intros x y Hx Hy Hin. destruct (ask_sound p found x Ha Hin) as (sp & _ & Hsp & _ & _).
    apply (ask_exact p sp found Hcl Hsp Ha) in Hin. apply (ask_exact p sp found Hcl Hsp Ha).
    destruct Hin as (sx & E & Hge & Hi). rewrite Hx in E. injection E as <-. by exists s. }
  naive_solver.
Qed.

Lemma list_choice {A B} (R : nat -> A -> B -> Prop) (l : list A) :
  (forall i a, l !! i = Some a -> exists b, R i a b) ->
  exists l' : list B, length l' = length l /\ forall i a b, l !! i = Some a -> l' !! i = Some b -> R i a b.
Proof.
  revert R. induction l as [|a l IH]; intros R HR; [by exists []|].
  destruct (HR 0 a eq_refl) as [b Hb]. destruct (IH (fun i => R (S i))) as (l' & Hl & Hl').
  { intros i x Hx. by apply (HR (S i)). }
  exists (b :: l'). split; [cbn; lia|]. intros [|i] x y Hx Hy; [by injection Hx as <-; injection Hy as <-|]. by apply Hl'.
Qed.

Lemma seeds_apart (cells : gmap P N) points cs : clean (nb * bw) ops -> seeded cells points cs -> (forall c, c ∈ cs -> c_points c <> []) ->
  exists seeds : list (P * list T), length seeds = length cs /\
    (forall i c p sp, cs !! i = Some c -> seeds !! i = Some (p, sp) -> p ∈ points /\ m !! p = Some sp /\
      (0 < nb -> 0 < bw -> (N.of_nat (nb * bw) <= 2 ^ 53)%N -> f64_ge f64_one th = true -> p ∈ c_points c)) /\
    (forall i j p sp q sq, i <> j -> seeds !! i = Some (p, sp) -> seeds !! j = Some (q, sq) ->
      ~ expected_answer nb bw bh th m sp q).
Proof.
  intros Hcl Hs Hne.
  destruct (list_choice (fun i c b => m !! b.1 = Some b.2 /\ exists found, b.1 ∈ points /\ cells !! b.1 = None /\
      b.1 ∉ concat (c_points <$> take i cs) /\ ask b.1 = Some found /\
      c_points c = filter (fun x => cells !! x = None /\ x ∉ concat (c_points <$> take i cs)) found) cs) as (seeds & Hl & Hsd).
  { intros i c Hc. destruct (Hs i c Hc) as (p & found & Hp & Hf & Hb & Ha & Ec).
    destruct (c_points c) as [|x l] eqn:E; [exfalso; by apply (Hne c); [eapply elem_of_list_lookup_2|]|].
    destruct (ask_sound p found x Ha) as (sp & _ & Hsp & _).
    { assert (Hx : x ∈ x :: l) by left. rewrite Ec in Hx. by apply elem_of_list_filter in Hx as [_ ?]. }
    exists (p, sp). split; [done|]. exists found. done. }
  exists seeds. split; [done|]. split.
  { intros i c p sp Hc Hi. destruct (Hsd i c _ Hc Hi) as (E & found & Hp & Hf & Hb & Ha & Ec). cbn in *. split; [done|]. split; [done|].
    intros H1 H2 H3 H4. destruct (ask_self p H1 H2 H3 H4) as (f' & Ha' & Hin); [by eexists|].
    rewrite Ha in Ha'. injection Ha' as <-. rewrite Ec. by apply elem_of_list_filter. }
  assert (Hlt : forall i j p sp q sq, i < j -> seeds !! i = Some (p, sp) -> seeds !! j = Some (q, sq) ->
      ~ expected_answer nb bw bh th m sp q /\ m !! p = Some sp /\ m !! q = Some sq).
  { intros i j p sp q sq Hij Hi Hj.
    destruct (lookup_lt_is_Some_2 cs i) as [c Hc]; [rewrite <- Hl; by eapply lookup_lt_Some|].
    destruct (lookup_lt_is_Some_2 cs j) as [d Hd]; [rewrite <- Hl; by eapply lookup_lt_Some|].
    destruct (Hsd i c _ Hc Hi) as (E & found & Hp & Hf & Hb & Ha & Ec).
    destruct (Hsd j d _ Hd Hj) as (E' & found' & Hp' & Hf' & Hb' & Ha' & Ec'). cbn in *. split; [|done].
    intros Hx. apply (ask_exact p sp found Hcl E Ha) in Hx. apply Hb'. apply in_take. exists i, c. split; [done|]. split; [done|].
    rewrite Ec. apply elem_of_list_filter. split; [|done]. split; [done|]. intros Hin. apply Hb'. apply in_take in Hin as (k & e & Hk & He & Hq).
    apply in_take. exists k, e. split; [lia|done]. }
  intros i j p sp q sq Hij Hi Hj. destruct (Nat.lt_total i j) as [Hc|[Hc|Hc]]; [|done|].
  - by destruct (Hlt i j p sp q sq Hc Hi Hj).
  - destruct (Hlt j i q sq p sp Hc Hj Hi) as (Hno & E1 & E2). by rewrite (answer_comm p q sp sq E2 E1).
Qed.
End ClusterIndex.
