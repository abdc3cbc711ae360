(** Proofs about the string index after any history. *)
From stdpp Require Import base list gmap.
From Coq Require Import NArith.
From Verif Require Import ListFacts Base Par ParFacts Float Container ContainerFacts MinHashIndex SpecIndex
  SimilarityFacts MinHashIndexFacts MinHashIndexFacts2 MinHashIndexFacts3 MinHashIndexThms
  MinHasher SpecMinHash MinHasherFacts Text StringIndex SpecString StringIndexFacts SpecHistory HistoryFacts SpecTextHistory.
Local Open Scope nat_scope.

Section Facts.
Context (hash : text -> N) (draws : N -> nat -> nat -> N) (bh : list N -> N).
Context (nb bw : nat) (th : f64).
Notation n := (nb * bw).
Notation sg := (sig_of hash draws nb bw).
Notation hs := (new_with_hasher draws n).
Notation idx iops := (after KHashSet bh nb bw th iops).
Notation ins := (fun p : N * text => Insert p.1 (sg p.2)).
Notation enter := (fold_left (fun (m : gmap N text) (p : N * text) => <[p.1 := p.2]> m)).

(** The insertions of a call and of a history that begins with the counter [d]. *)
Definition step_puts (d : N) (o : string_op) : list (N * text) :=
  numbered (if parallel o then d else d + 1)%N (adds o).
Fixpoint puts (d : N) (ops : list string_op) : list (N * text) :=
  match ops with [] => [] | o :: ops' => step_puts d o ++ puts (d + N.of_nat (length (adds o)))%N ops' end.

Definition state (s : string_index) (ps : list (N * text)) : Prop :=
  min_hash s = hs /\ lsh_index s = idx (ins <$> ps) /\ doc_map s = enter ps ∅.

Lemma insert_state s ps t : state s ps ->
  let r := string_insert hash bh t s in
  r.2 = false /\ doc_id r.1 = (doc_id s + 1)%N /\ state r.1 (ps ++ [((doc_id s + 1)%N, t)]).
Proof.
  intros (Hh & Hl & Hd) r. unfold r, string_insert. rewrite Hh. destruct (sig_ok hash draws nb bw t) as [-> Hlen].
  rewrite Hl. cbn [fst snd]. rewrite insert_ok. split; [done|]. split; [done|]. split; [done|]. split.
  - rewrite fmap_app. cbn. by rewrite after_insert.
  - cbn. by rewrite fold_left_app, Hd.
Qed.
Lemma lines_state s ps ls : state s ps ->
  let r := load_from_lines hash bh ls s in
  r.2 = false /\ doc_id r.1 = (doc_id s + N.of_nat (length (omap id ls)))%N /\
  state r.1 (ps ++ numbered (doc_id s + 1)%N (omap id ls)).
Proof.
  revert s ps. induction ls as [|[t|] ls IH]; intros s ps Hs.
  - cbn. rewrite N.add_0_r, app_nil_r. done.
  - destruct (insert_state s ps t Hs) as (H1 & H2 & H3). cbn [load_from_lines]. rewrite H1.
    destruct (IH _ _ H3) as (H4 & H5 & H6). split; [done|]. split.
    + rewrite H5, H2. cbn. lia.
    + rewrite H2, <- app_assoc in H6. exact H6.
  - exact (IH s ps Hs).
Qed.
Lemma parallel_state s ps sched1 sched2 ls : state s ps -> None ∉ ls ->
  let r := load_from_file_parallel hash bh sched1 sched2 (Some ls) s in
  doc_id r.1 = (doc_id s + N.of_nat (length (omap id ls)))%N /\
  state r.1 (ps ++ numbered (doc_id s) (omap id ls)).
Proof.
  intros (Hh & Hl & Hd) Hls. cbn zeta. unfold load_from_file_parallel.
  rewrite (number_lines_spec hash draws bh nb), decide_True by done. rewrite Hh, par_sigs, Hl.
  set (ts := omap Datatypes.id ls). set (d := doc_id s) in *.
  destruct (bulk_ok bh nb bw th (ins <$> ps) sched2 ((fun p => (p.1, sg p.2)) <$> numbered d ts)) as [H1 H2].
  { apply Forall_fmap, Forall_true. intros p. apply sig_ok. }
  rewrite H1. cbn [fst snd doc_id]. rewrite H2. rewrite numbered_length. split; [done|]. split; [done|]. split.
  - cbn. rewrite <- list_fmap_compose, fmap_app. done.
  - cbn. by rewrite fold_left_app, Hd.
Qed.
Lemma step_state s ps o : state s ps ->
  let r := string_step hash bh s o in
  doc_id r.1 = (doc_id s + N.of_nat (length (adds o)))%N /\ state r.1 (ps ++ step_puts (doc_id s) o).
Proof.
  intros Hs. unfold step_puts.
  assert (Hn : doc_id s = (doc_id s + N.of_nat 0)%N /\ state s (ps ++ [])) by (rewrite N.add_0_r, app_nil_r; done).
  destruct o as [t|ls|[ls|]|sc1 sc2 [ls|]]; cbn [string_step parallel]; try exact Hn.
  - destruct (insert_state s ps t Hs) as (_ & H2 & H3). cbn [fst snd]. done.
  - destruct (lines_state s ps ls Hs) as (_ & H2 & H3). cbn [fst snd]. done.
  - destruct (lines_state s ps ls Hs) as (_ & H2 & H3). cbn [load_from_file fst snd]. done.
  - unfold adds, all_readable, readable. destruct (decide (None ∈ ls)) as [Hin|Hnin].
    + rewrite bool_decide_false by tauto. unfold load_from_file_parallel.
      rewrite (number_lines_spec hash draws bh nb). destruct (decide (None ∉ ls)) as [Hc|_]; [by destruct (Hc Hin)|]. exact Hn.
    + rewrite bool_decide_true by done. exact (parallel_state s ps sc1 sc2 ls Hs Hnin).
Qed.
Lemma run_state s ps ops : state s ps -> state (string_run hash bh s ops) (ps ++ puts (doc_id s) ops).
Proof.
  revert s ps. induction ops as [|o ops IH]; intros s ps Hs; [cbn; by rewrite app_nil_r|].
  destruct (step_state s ps o Hs) as [Hd Hs']. cbn zeta in *. specialize (IH _ _ Hs').
  rewrite Hd, <- app_assoc in IH. exact IH.
Qed.
Lemma after_state ops : state (string_after hash draws bh nb bw th ops) (puts 0 ops).
Proof. apply (run_state (string_new draws nb bw th) [] ops). done. Qed.

(** ** The insertions and the documents *)
Notation entry := (N * (text * option text))%type.
Record ledger (ps : list (N * text)) (H : list entry) : Prop := {
  g_nodup : NoDup H.*1;
  g_docs : forall x t, enter ps ∅ !! x = Some t <-> exists f, (x, (t, f)) ∈ H;
  g_puts : forall x t, (x, t) ∈ ps <-> exists e, (x, e) ∈ H /\ (e.1 = t \/ e.2 = Some t);
}.
Lemma ledger_fresh ps H x t : ledger ps H -> x ∉ H.*1 -> ledger (ps ++ [(x, t)]) (H ++ [(x, anew t)]).
Proof.
  intros [H1 H2 H3] Hx. split.
  - rewrite fmap_app. apply NoDup_app. split; [done|]. split; [set_solver|]. apply NoDup_singleton.
  - intros y u. rewrite fold_left_app. cbn. destruct (decide (x = y)) as [<-|Hne].
    + rewrite lookup_insert. split.
      * intros [= <-]. exists None. set_solver.
      * intros (f & [Hf|Hf]%elem_of_app); [exfalso; apply Hx, elem_of_list_fmap; by exists (x, (u, f))|].
        apply elem_of_list_singleton in Hf. by injection Hf as -> ->.
    + rewrite lookup_insert_ne by done. rewrite H2. split; intros (f & Hf); exists f.
      * apply elem_of_app. by left.
      * apply elem_of_app in Hf as [?|Hf]; [done|]. apply elem_of_list_singleton in Hf. congruence.
  - intros y u. rewrite elem_of_app, H3, elem_of_list_singleton. split.
    + intros [(e & He & Hu)|[= -> ->]].
      * exists e. split; [apply elem_of_app; by left|done].
      * exists (anew t). split; [apply elem_of_app; right; by left|by left].
    + intros (e & [He|He]%elem_of_app & Hu); [by eauto|]. right. apply elem_of_list_singleton in He. injection He as -> ->.
      cbn in Hu. destruct Hu as [->|?]; done.
Qed.
Lemma ledger_last ps H x t t0 : ledger ps (H ++ [(x, anew t0)]) -> ledger (ps ++ [(x, t)]) (H ++ [(x, (t, Some t0))]).
Proof.
  intros [H1 H2 H3].
  assert (Hx : x ∉ H.*1).
  { rewrite fmap_app in H1. apply NoDup_app in H1 as (_ & Hd & _). intros Hin. apply (Hd x Hin). by left. }
  split.
  - rewrite fmap_app in H1 |- *. exact H1.
  - intros y u. rewrite fold_left_app. cbn. destruct (decide (x = y)) as [<-|Hne].
    + rewrite lookup_insert. split.
      * intros [= <-]. exists (Some t0). set_solver.
      * intros (f & [Hf|Hf]%elem_of_app); [exfalso; apply Hx, elem_of_list_fmap; by exists (x, (u, f))|].
        apply elem_of_list_singleton in Hf. by injection Hf as -> ->.
    + rewrite lookup_insert_ne by done. rewrite H2. split; intros (f & [Hf|Hf]%elem_of_app); exists f; apply elem_of_app.
      * by left.
      * apply elem_of_list_singleton in Hf. congruence.
      * by left.
      * apply elem_of_list_singleton in Hf. congruence.
  - intros y u. rewrite elem_of_app, H3, elem_of_list_singleton. split.
    + intros [(e & [He|He]%elem_of_app & Hu)|[= -> ->]].
      * exists e. split; [apply elem_of_app; by left|done].
      * apply elem_of_list_singleton in He. injection He as -> ->. exists (t, Some t0).
        split; [apply elem_of_app; right; by left|]. right. cbn in Hu |- *. destruct Hu as [->|?]; done.
      * exists (t, Some t0). split; [apply elem_of_app; right; by left|by left].
    + intros (e & [He|He]%elem_of_app & Hu).
      * left. exists e. split; [apply elem_of_app; by left|done].
      * apply elem_of_list_singleton in He. injection He as -> ->. cbn in Hu. destruct Hu as [->|[= ->]]; [by right|].
        left. exists (anew u). split; [apply elem_of_app; right; by left|by left].
Qed.

Definition below (d : N) (H : list entry) : Prop := forall x, x ∈ H.*1 -> (x < d)%N.
Lemma ledger_many ps H d ts : ledger ps H -> below d H -> exists H',
  H'.*2 = anew <$> ts /\ ledger (ps ++ numbered d ts) (H ++ H') /\ below (d + N.of_nat (length ts)) (H ++ H') /\
  (forall ts0 t, ts = ts0 ++ [t] -> exists H0, H' = H0 ++ [((d + N.of_nat (length ts) - 1)%N, anew t)] /\
     below (d + N.of_nat (length ts) - 1) (H ++ H0)).
Proof.
  revert ps H d. induction ts as [|t ts IH]; intros ps H d Hl Hb.
  - exists []. cbn. rewrite !app_nil_r, N.add_0_r. split; [done|]. split; [done|]. split; [done|]. intros [] ?; discriminate.
  - destruct (IH (ps ++ [(d, t)]) (H ++ [(d, anew t)]) (d + 1)%N) as (H' & E & Hl' & Hb' & Hlast).
    + apply ledger_fresh; [done|]. intros Hd. specialize (Hb d Hd). lia.
    + intros x. rewrite fmap_app, elem_of_app. intros [Hx|Hx]; [specialize (Hb x Hx); lia|].
      apply elem_of_list_singleton in Hx. cbn in Hx. lia.
    + exists ((d, anew t) :: H'). cbn [fmap list_fmap fst snd numbered length]. rewrite E.
      rewrite <- (app_assoc H) in Hl', Hb'. rewrite <- (app_assoc ps) in Hl'. cbn [app] in *.
      replace (d + N.of_nat (S (length ts)))%N with (d + 1 + N.of_nat (length ts))%N by lia.
      split; [done|]. split; [exact Hl'|]. split; [exact Hb'|]. intros ts0 u Eu. destruct ts as [|t' ts'].
      * destruct H'; [|done]. destruct ts0 as [|? []]; [|discriminate..]. injection Eu as ->. exists [].
        cbn. rewrite app_nil_r. replace (d + 1 + 0 - 1)%N with d by lia. done.
      * destruct ts0 as [|t0 ts0]; [discriminate|]. injection Eu as -> Eu. destruct (Hlast ts0 u Eu) as (H0 & -> & Hb0).
        exists ((d, anew t0) :: H0). split; [done|]. by rewrite <- app_assoc in Hb0.
Qed.

(** The counter [d] after the insertions; the flag of [held_step]. *)
Definition tail (d : N) (b : bool) (H : list entry) : Prop :=
  if b then exists H0 t, H = H0 ++ [(d, anew t)] /\ below d H0 else below d H.
Lemma tail_below d b H : tail d b H -> below (d + 1) H.
Proof.
  destruct b; cbn.
  - intros (H0 & t & -> & Hb) x. rewrite fmap_app, elem_of_app. intros [Hx|Hx]; [specialize (Hb x Hx); lia|].
    apply elem_of_list_singleton in Hx. cbn in Hx. lia.
  - intros Hb x Hx. specialize (Hb x Hx). lia.
Qed.
Lemma step_ledger ps H d a o : ledger ps H -> H.*2 = a.1 -> tail d a.2 H -> exists H',
  ledger (ps ++ step_puts d o) H' /\ H'.*2 = (held_step a o).1 /\ tail (d + N.of_nat (length (adds o))) (held_step a o).2 H'.
Proof.
  intros Hl Ha Ht. unfold step_puts, held_step. destruct (adds o) as [|t ts].
  - cbn. rewrite app_nil_r, N.add_0_r. eauto.
  - destruct (parallel o).
    + destruct a as [l [|]]; cbn [fst snd] in *.
      * destruct Ht as (H0 & t0 & -> & Hb). rewrite <- Ha. rewrite !fmap_app. cbn [fmap list_fmap fst snd].
        rewrite last_snoc, app_length. cbn [length]. rewrite Nat.add_sub, take_app. cbn [fst snd].
        pose proof (ledger_last ps H0 d t t0 Hl) as Hl'.
        destruct (ledger_many _ _ (d + 1)%N ts Hl') as (H' & E & Hl2 & Hb' & _).
        { intros x. rewrite fmap_app, elem_of_app. intros [Hx|Hx]; [specialize (Hb x Hx); lia|].
          apply elem_of_list_singleton in Hx. cbn in Hx. lia. }
        exists ((H0 ++ [(d, (t, Some t0))]) ++ H'). split; [|split].
        -- cbn [numbered]. rewrite <- app_assoc in Hl2. exact Hl2.
        -- rewrite !fmap_app, E, <- app_assoc. done.
        -- cbn [tail length]. by replace (d + N.of_nat (S (length ts)))%N with (d + 1 + N.of_nat (length ts))%N by lia.
      * destruct (ledger_many ps H d (t :: ts) Hl Ht) as (H' & E & Hl2 & Hb' & _).
        exists (H ++ H'). split; [done|]. split; [by rewrite fmap_app, E, Ha|done].
    + destruct (ledger_many ps H (d + 1)%N (t :: ts) Hl (tail_below _ _ _ Ht)) as (H' & E & Hl2 & Hb' & Hlast).
      exists (H ++ H'). split; [done|]. split; [by rewrite fmap_app, E, Ha|]. cbn [snd tail].
      destruct (exists_last (l := t :: ts) ltac:(done)) as (ts0 & u & Eu). destruct (Hlast ts0 u Eu) as (H0 & -> & Hb0).
      replace (d + 1 + N.of_nat (length (t :: ts)) - 1)%N with (d + N.of_nat (length (t :: ts)))%N in * by lia.
      exists (H ++ H0), u. split; [by rewrite app_assoc|done].
Qed.
Lemma run_ledger ps H d a ops : ledger ps H -> H.*2 = a.1 -> tail d a.2 H -> exists H',
  ledger (ps ++ puts d ops) H' /\ H'.*2 = (fold_left held_step ops a).1.
Proof.
  revert ps H d a. induction ops as [|o ops IH]; intros ps H d a Hl Ha Ht.
  - exists H. cbn. by rewrite app_nil_r.
  - destruct (step_ledger ps H d a o Hl Ha Ht) as (H' & Hl' & Ha' & Ht').
    destruct (IH _ _ _ _ Hl' Ha' Ht') as (H2 & ? & ?). exists H2. cbn. by rewrite app_assoc.
Qed.
Lemma held_ledger ops : exists H, ledger (puts 0 ops) H /\ H.*2 = held ops.
Proof.
  apply (run_ledger [] [] 0%N ([], false) ops); [|done|].
  - split; [constructor| |].
    + intros x t. cbn. rewrite lookup_empty. split; [done|]. intros (f & Hf). by apply elem_of_nil in Hf.
    + intros x t. rewrite elem_of_nil. split; [done|]. intros (e & He & _). by apply elem_of_nil in He.
  - intros x Hx. by apply elem_of_nil in Hx.
Qed.

(** ** What the index holds *)
Lemma spec_enter ps m : fold_left (spec_step n) (ins <$> ps) (sg <$> m) = sg <$> enter ps m.
Proof.
  revert m. induction ps as [|p ps IH]; intros m; [done|]. cbn [fmap list_fmap fold_left spec_step].
  rewrite decide_True by apply sig_ok. rewrite <- fmap_insert. apply IH.
Qed.
Lemma marks_enter i key x ps m c : 0 < marks_from KHashSet bh n bw i key x m c (ins <$> ps) <->
  0 < c \/ exists t, (x, t) ∈ ps /\ bh (nth_band bw i (sg t)) = key.
Proof.
  revert m c. induction ps as [|[y t] ps IH]; intros m c.
  - cbn. split; [by left|]. intros [?|(t & Ht & _)]; [done|by apply elem_of_nil in Ht].
  - cbn [fmap list_fmap marks_from marks_step fst snd]. rewrite IH, decide_True by apply sig_ok. unfold note. cbn [fst snd].
    destruct (decide (y = x /\ _)) as [[-> Hk]|Hne].
    + cbn. split; [|lia]. intros _. right. exists t. split; [by left|done].
    + split.
      * intros [?|(u & Hu & Hk)]; [by left|right]. exists u. split; [by right|done].
      * intros [?|(u & [[= -> ->]|Hu]%elem_of_cons & Hk)]; [by left|tauto|right; eauto].
Qed.

Lemma text_exact ops q order : is_order order ->
  exists r, string_query hash bh order (string_after hash draws bh nb bw th ops) q = Some r /\
    r ≡ₚ (filter (answered hash draws bh nb bw th q) (held ops)).*1.
Proof.
  intros Ho. destruct (after_state ops) as (Hh & Hl & Hd). destruct (held_ledger ops) as (L & [Hnd Hdocs Hputs] & HH).
  set (s := string_after hash draws bh nb bw th ops) in *. set (ps := puts 0 ops) in *.
  destruct (sig_ok hash draws nb bw q) as [Hq Hql].
  assert (Hs : spec_map n (ins <$> ps) = sg <$> doc_map s).
  { rewrite Hd. rewrite <- spec_enter. unfold spec_map. by rewrite fmap_empty. }
  assert (Hw : well_sized n (spec_map n (ins <$> ps))).
  { rewrite Hs. intros x sx. rewrite lookup_fmap. intros (t & _ & ->)%fmap_Some. apply sig_ok. }
  assert (Hwhole : whole n (ins <$> ps)) by (apply Forall_fmap, Forall_true; done).
  destruct (history_exact KHashSet bh nb bw th (ins <$> ps) (sg q) Hwhole Hw Hql) as (S & HS & Hin).
  set (P := (fun h : entry => (h.1, h.2.1)) <$> L).
  assert (HP1 : P.*1 = L.*1) by (unfold P; rewrite <- list_fmap_compose; done).
  assert (Hdm : doc_map s = list_to_map P).
  { apply map_eq. intros x. apply option_eq. intros t. rewrite Hd, Hdocs.
    rewrite <- elem_of_list_to_map by by rewrite HP1. unfold P. rewrite elem_of_list_fmap. split.
    - intros (f & Hf). by exists (x, (t, f)).
    - intros ([y [u f]] & [= -> ->] & Hf). eauto. }
  assert (Hentry : forall h, h ∈ L -> h.1 ∈ S <-> answered hash draws bh nb bw th q h.2).
  { intros [x [t f]] Hh'. cbn [fst snd].
    assert (Hx : doc_map s !! x = Some t) by (rewrite Hd; apply Hdocs; eauto).
    assert (Huniq : forall e, (x, e) ∈ L -> e = (t, f)).
    { intros e He. apply elem_of_list_lookup in He as [i Hi], Hh' as [j Hj].
      assert (i = j); [|congruence]. apply (NoDup_lookup L.*1 i j x Hnd); by rewrite list_lookup_fmap, ?Hi, ?Hj. }
    rewrite Hin. unfold history_answer, answered, similar, meets. cbn [fst snd]. rewrite Hs, lookup_fmap, Hx. cbn [fmap option_fmap option_map].
    assert (Hm : forall i key, 0 < marks KHashSet bh n bw i key x (ins <$> ps) <->
      bh (nth_band bw i (sg t)) = key \/ exists u, f = Some u /\ bh (nth_band bw i (sg u)) = key).
    { intros i key. unfold marks. rewrite marks_enter. split.
      - intros [?|(u & Hu & Hk)]; [lia|]. apply Hputs in Hu as (e & He & Hu). rewrite (Huniq e He) in Hu. cbn in Hu.
        destruct Hu as [->| ->]; [by left|right; eauto].
      - intros [Hk|(u & -> & Hk)]; right; eexists; (split; [|exact Hk]); apply Hputs; eexists; (split; [exact Hh'|]); [by left|by right]. }
    split.
    - intros (sx & [= <-] & Hsim & i & Hi & Hmk). split; [done|].
      apply Hm in Hmk as [Hk|(u & -> & Hk)]; [left|right]; apply Exists_exists; exists i; (split; [apply elem_of_seq; lia|done]).
    - intros (Hsim & Hk). exists (sg t). split; [done|]. split; [done|].
      destruct Hk as [Hk|Hk]; [|destruct f as [u|]; [|done]]; apply Exists_exists in Hk as (i & Hi%elem_of_seq & Hk);
        exists i; (split; [lia|]); apply Hm; [by left|right; eauto]. }
  destruct (query_texts hash draws bh nb (doc_map s) P S order Ho Hdm) as (r & Hr & Hrp).
  { by rewrite HP1. }
  { intros x Hx. rewrite HP1. apply Hin in Hx as (sx & Hsx & _). rewrite Hs, lookup_fmap in Hsx.
    apply fmap_Some in Hsx as (t & Ht & _). rewrite Hd in Ht. apply Hdocs in Ht as (f & Hf). apply elem_of_list_fmap. by exists (x, (t, f)). }
  exists r. split.
  { unfold string_query. rewrite Hh, Hq. cbn [mbind option_bind]. rewrite Hl, HS. cbn [mbind option_bind]. exact Hr. }
  rewrite Hrp, <- HH. unfold P. clear -Hentry.
  assert (E : (filter (fun p : N * text => p.1 ∈ S) ((fun h : entry => (h.1, h.2.1)) <$> L)).*2 = (filter (answered hash draws bh nb bw th q) L.*2).*1); [|by rewrite E].
  induction L as [|h L IH]; [done|]. cbn [fmap list_fmap]. rewrite !filter_cons. cbn [fst snd].
  specialize (IH (fun h' Hh' => Hentry h' (elem_of_list_further _ _ _ Hh'))).
  specialize (Hentry h (elem_of_list_here _ _)).
  destruct (decide (h.1 ∈ S)) as [Hy|Hn], (decide (answered hash draws bh nb bw th q h.2)) as [Hy'|Hn']; cbn; rewrite ?IH; tauto || done.
Qed.

Lemma live_exact ops q order : q ∈ (held ops).*1 -> is_order order ->
  0 < nb -> 0 < bw -> (N.of_nat n <= 2 ^ 53)%N -> f64_ge f64_one th = true ->
  exists r, string_query hash bh order (string_after hash draws bh nb bw th ops) q = Some r /\ q ∈ r.
Proof.
  intros Hin Ho Hnb Hbw Hn Hth.
  destruct (text_exact ops q order Ho) as (r & Hr & Hp).
  exists r. split; [done|]. rewrite Hp. apply elem_of_list_fmap in Hin as (e & Eq & He).
  apply elem_of_list_fmap. exists e. split; [done|]. apply elem_of_list_filter. split; [|done]. unfold answered. rewrite <- Eq.
  destruct (sig_ok hash draws nb bw q) as [_ Hl]. split.
  - unfold similar. rewrite sim_refl; [done| |by rewrite Hl]. rewrite Hl. nia.
  - left. apply Exists_exists. exists 0. split; [apply elem_of_seq; lia|done].
Qed.
End Facts.

(** ** Documents held and lost *)
Notation book := (list (text * option text)).

(** What [held_step] keeps to: the last document, if added one by one, replaced nothing. *)
Definition sound (a : book * bool) : Prop := a.2 = true -> exists l t, a.1 = l ++ [anew t].
Lemma omap_anew (ts : list text) : omap snd (anew <$> ts) = [].
Proof. by induction ts. Qed.
Lemma fst_anew (ts : list text) : (anew <$> ts).*1 = ts.
Proof. induction ts as [|t ts IH]; [done|]. cbn. by rewrite IH. Qed.

Lemma held_step_spec a o : sound a ->
  sound (held_step a o) /\
  ((held_step a o).1.*1, (held_step a o).2) = live_step (a.1.*1, a.2) o /\
  ((held_step a o).1.*1 ++ lost (held_step a o).1 ≡ₚ (a.1.*1 ++ lost a.1) ++ adds o) /\
  (length (lost (held_step a o).1) =
    length (lost a.1) + if parallel o && a.2 && negb (bool_decide (adds o = [])) then 1 else 0)%nat.
Proof.
  unfold held_step, live_step, sound. destruct a as [l b]. cbn [fst snd]. intros Ha.
  destruct (adds o) as [|t ts] eqn:Ed.
  - split; [done|]. split; [done|]. rewrite bool_decide_true by done. cbn [negb]. rewrite app_nil_r, andb_false_r. split; [done|]. symmetry. apply Nat.add_0_r.
  - rewrite bool_decide_false by done. cbn [negb]. rewrite andb_true_r. destruct (parallel o); cbn [andb].
    + destruct b.
      * destruct (Ha eq_refl) as (l0 & t0 & ->). rewrite last_snoc. cbn [fst snd].
        rewrite app_length. cbn [length]. rewrite Nat.add_sub, take_app. split; [discriminate|].
        unfold lost. rewrite !fmap_app, !omap_app. cbn [fmap list_fmap fst snd omap list_omap anew].
        change (omap snd (anew <$> ts)) with (lost (anew <$> ts)). unfold lost. rewrite omap_anew.
        change (list_fmap _ _ fst (list_fmap _ _ anew ts)) with ((anew <$> ts).*1). 
        split; [|split].
        -- f_equal. rewrite fst_anew, app_length. cbn [length]. rewrite Nat.add_sub.
           by rewrite take_app.
        -- rewrite fst_anew, !app_nil_r. solve_Permutation.
        -- rewrite !app_length. cbn. lia.
      * split; [discriminate|]. cbn [fst snd]. unfold lost. rewrite fmap_app, omap_app, omap_anew, fst_anew, app_nil_r.
        split; [done|]. split; [solve_Permutation|]. lia.
    + cbn [fst snd]. unfold lost. rewrite fmap_app, omap_app, omap_anew, fst_anew, app_nil_r. split.
      * intros _. destruct (exists_last (l := t :: ts) ltac:(done)) as (ts0 & u & ->). exists (l ++ (anew <$> ts0)), u.
        by rewrite fmap_app, app_assoc.
      * split; [done|]. split; [solve_Permutation|]. lia.
Qed.

Lemma held_flag a o : sound a -> (held_step a o).2 = match adds o with [] => a.2 | _ => negb (parallel o) end.
Proof. intros _. unfold held_step. destruct (adds o); [done|]. destruct (parallel o); [|done]. by destruct (a.2), (last a.1). Qed.
Lemma held_run a ops : sound a ->
  let a' := fold_left held_step ops a in
  a'.1.*1 = (fold_left live_step ops (a.1.*1, a.2)).1 /\
  (a'.1.*1 ++ lost a'.1 ≡ₚ (a.1.*1 ++ lost a.1) ++ added ops) /\
  length (lost a'.1) = length (lost a.1) + losses a.2 ops.
Proof.
  revert a. induction ops as [|o ops IH]; intros a Ha.
  - cbn. rewrite app_nil_r. split; [done|]. split; [done|lia].
  - destruct (held_step_spec a o Ha) as (Ha' & Hl & Hp & Hc). pose proof (held_flag a o Ha) as Hf. specialize (IH _ Ha'). cbn [fold_left losses] in *. cbn zeta in *.
    destruct IH as (I1 & I2 & I3). rewrite Hl in I1. split; [done|]. split.
    + rewrite I2, Hp. unfold added. cbn. by rewrite app_assoc.
    + rewrite I3, Hc, Hf. lia.
Qed.
Lemma lossless_losses b ops : lossless_from b ops <-> losses b ops = 0.
Proof.
  revert b. induction ops as [|o ops IH]; intros b; [done|]. cbn [lossless_from losses]. rewrite IH.
  destruct (parallel o), b, (adds o) as [|t ts]; rewrite ?(bool_decide_false (_ :: _ = [])) by done; cbn;
    intuition (discriminate || lia || auto).
Qed.
Lemma held_spec ops :
  (held ops).*1 = live ops /\ live ops ++ lost (held ops) ≡ₚ added ops /\ length (lost (held ops)) = losses false ops.
Proof.
  destruct (held_run ([], false) ops) as (H1 & H2 & H3); [done|]. cbn zeta in *. unfold held, live. rewrite H1 in H2. auto.
Qed.
