(** Proofs about the string index. *)
From stdpp Require Import base list gmap.
From Coq Require Import NArith.
From Verif Require Import ListFacts Base Par ParFacts Float Container ContainerFacts MinHashIndex SpecIndex
  SimilarityFacts MinHashIndexFacts MinHashIndexFacts2 MinHashIndexFacts3 MinHashIndexThms
  MinHasher SpecMinHash MinHasherFacts Text StringIndex SpecString.
Local Open Scope nat_scope.

Section Facts.
Context (hash : text -> N) (draws : N -> nat -> nat -> N) (bh : list N -> N).
Context (nb bw : nat) (th : f64).
Notation n := (nb * bw).
Notation sg := (sig_of hash draws nb bw).
Notation hs := (new_with_hasher draws n).
Notation idx iops := (after KHashSet bh nb bw th iops).
Notation ins p := (Insert p.1 (sg p.2)).
Implicit Types (t q : text) (P : list (N * text)) (iops : list (op N N)).

Lemma sig_ok t : text_signature hash hs t = Some (sg t) /\ length (sg t) = n.
Proof.
  unfold text_signature, sig_of.
  destruct (signature_shape hash draws n 3%N MinHasher64V1 (whitespace_split t)) as (s & Hs & Hl & _).
  unfold new_with_hasher. rewrite Hs. done.
Qed.

(** ** The index operations performed, and the documents *)
Record core iops P (docs : gmap N text) (cl : Prop) : Prop := {
  core_docs : docs = list_to_map P;
  core_nodup : NoDup P.*1;
  core_sigs : spec_map n iops = sg <$> docs;
  core_clean : cl -> clean n iops;
}.

Lemma spec_map_snoc iops o : spec_map n (iops ++ [o]) = spec_step n (spec_map n iops) o.
Proof. unfold spec_map. by rewrite fold_left_app. Qed.

Lemma clean_snoc iops o :
  clean n iops -> clean_op n (spec_map n iops) o -> clean n (iops ++ [o]).
Proof.
  unfold clean, spec_map. generalize (∅ : gmap N (list N)) as m.
  induction iops as [|o' iops IH]; intros m; cbn; [tauto|]. intros [H1 H2] H3. eauto.
Qed.

Lemma put_fresh iops P docs cl p :
  p.1 ∉ P.*1 -> core iops P docs cl ->
  core (iops ++ [ins p]) (P ++ [p]) (<[p.1 := p.2]> docs) cl.
Proof.
  intros Hf [-> Hnd Hs Hc]. destruct p as [d t]. cbn [fst snd] in *. split.
  - by rewrite list_to_map_snoc.
  - rewrite fmap_app. apply NoDup_app. split; [done|]. split; [set_solver|]. apply NoDup_singleton.
  - rewrite spec_map_snoc. cbn [spec_step]. rewrite decide_True by apply sig_ok.
    by rewrite fmap_insert, Hs.
  - intros Hcl. apply clean_snoc; [auto|]. cbn. intros _. rewrite Hs, lookup_fmap.
    by rewrite not_elem_of_list_to_map_1.
Qed.

Lemma put_last iops P docs cl p t0 :
  core iops (P ++ [(p.1, t0)]) docs cl ->
  core (iops ++ [ins p]) (P ++ [p]) (<[p.1 := p.2]> docs) False.
Proof.
  destruct p as [d t]. cbn [fst snd]. intros [-> Hnd Hs Hc].
  assert (Hf : d ∉ P.*1).
  { rewrite fmap_app in Hnd. apply NoDup_app in Hnd as (_ & Hd & _). intros Hin.
    apply (Hd d Hin). cbn. set_solver. }
  split; [| |  |done].
  - rewrite !list_to_map_snoc by done. by rewrite insert_insert.
  - by rewrite fmap_app in Hnd |- *.
  - rewrite spec_map_snoc. cbn [spec_step]. rewrite decide_True by apply sig_ok.
    by rewrite fmap_insert, Hs.
Qed.

Definition ids_below (d : N) P : Prop := Forall (fun x => (x < d)%N) P.*1.

(** The documents of a batch, numbered from [d]. *)
Fixpoint numbered (d : N) (ts : list text) : list (N * text) :=
  match ts with [] => [] | t :: ts' => (d, t) :: numbered (d + 1) ts' end.

Lemma number_lines_spec d ls :
  number_lines d ls = if decide (None ∉ ls) then Some (numbered d (omap id ls)) else None.
Proof.
  revert d. induction ls as [|[t|] ls IH]; intros d; cbn [number_lines].
  - by rewrite decide_True by set_solver.
  - rewrite IH. destruct (decide (None ∉ ls)) as [H|H].
    + rewrite decide_True by set_solver. done.
    + rewrite decide_False by set_solver. done.
  - rewrite decide_False; [done|]. set_solver.
Qed.

Lemma numbered_snd d ts : (numbered d ts).*2 = ts.
Proof. revert d. induction ts as [|t ts IH]; intros d; [done|]. cbn. by rewrite IH. Qed.
Lemma numbered_length d ts : length (numbered d ts) = length ts.
Proof. revert d. induction ts as [|t ts IH]; intros d; [done|]. cbn. by rewrite IH. Qed.

Lemma put_many d ts iops P docs cl :
  ids_below d P -> core iops P docs cl ->
  core (iops ++ ((fun p => ins p) <$> numbered d ts)) (P ++ numbered d ts)
    (fold_left (fun m p => <[p.1 := p.2]> m) (numbered d ts) docs) cl /\
  ids_below (d + N.of_nat (length ts)) (P ++ numbered d ts).
Proof.
  revert d iops P docs. induction ts as [|t ts IH]; intros d iops P docs Hb Hc.
  - cbn. rewrite !app_nil_r. split; [done|]. by rewrite N.add_0_r.
  - cbn [numbered fmap list_fmap fold_left].
    assert (Hc' := put_fresh iops P docs cl (d, t)). cbn [fst snd] in *.
    destruct (IH (d + 1)%N (iops ++ [Insert d (sg t)]) (P ++ [(d, t)]) (<[d := t]> docs)) as [H1 H2].
    + unfold ids_below in *. rewrite fmap_app. apply Forall_app. split.
      * eapply Forall_impl; [exact Hb|]. intros x Hx. cbn in Hx. lia.
      * constructor; [|constructor]. cbn. lia.
    + apply Hc'; [|done]. intros Hin. unfold ids_below in Hb. rewrite Forall_forall in Hb.
      specialize (Hb d Hin). lia.
    + rewrite <- !app_assoc in H1. cbn [app] in H1. split; [done|].
      rewrite <- !app_assoc in H2. cbn [app] in H2. cbn [length].
      by replace (d + N.of_nat (S (length ts)))%N with (d + 1 + N.of_nat (length ts))%N by lia.
Qed.

(** ** The invariant *)
Record sinv (s : string_index) (a : list text * bool) (cl : Prop) : Prop := {
  si_hasher : min_hash s = hs;
  si_core : exists iops P, lsh_index s = idx iops /\ core iops P (doc_map s) cl /\ P.*2 = a.1 /\
    if a.2 then exists P0 t, P = P0 ++ [(doc_id s, t)] /\ ids_below (doc_id s) P0
    else ids_below (doc_id s) P;
}.

Lemma new_sinv : sinv (string_new draws nb bw th) ([], false) True.
Proof.
  split; [done|]. exists [], []. split; [done|]. split; [split|].
  - done.
  - constructor.
  - unfold spec_map. cbn [fold_left doc_map string_new]. by rewrite fmap_empty.
  - done.
  - split; [done|]. constructor.
Qed.

Lemma after_insert iops (id : N) s :
  idx (iops ++ [Insert id s]) = (insert (container KHashSet N) bh id s (idx iops)).1.
Proof. unfold after. by rewrite run_snoc. Qed.

Lemma insert_ok iops (id : N) t :
  (insert (container KHashSet N) bh id (sg t) (idx iops)).2 = OUnit.
Proof.
  pose proof (insert_inv (container KHashSet N) (container_laws_all KHashSet) bh nb bw th (idx iops)
    (spec_map n iops) id (sg t) (after_inv KHashSet bh nb bw th iops)) as Hi.
  cbn [spec_step spec_out] in Hi. destruct Hi as [_ ->]. by rewrite decide_True by apply sig_ok.
Qed.

Lemma ids_below_next s (a : bool) cl iops P :
  (if a then exists P0 t, P = P0 ++ [(doc_id s, t)] /\ ids_below (doc_id s) P0
   else ids_below (doc_id s) P) -> core iops P (doc_map s) cl ->
  ids_below (doc_id s + 1) P.
Proof.
  intros Ha _. unfold ids_below in *. destruct a.
  - destruct Ha as (P0 & t & -> & Hb). rewrite fmap_app. apply Forall_app. split.
    + eapply Forall_impl; [exact Hb|]. cbn. intros; lia.
    + constructor; [cbn; lia|constructor].
  - eapply Forall_impl; [exact Ha|]. cbn. intros; lia.
Qed.

Lemma insert_sinv s a cl t :
  sinv s a cl ->
  let r := string_insert hash bh t s in
  r.2 = false /\ doc_id r.1 = (doc_id s + 1)%N /\ sinv r.1 (a.1 ++ [t], true) cl.
Proof.
  intros [Hh (iops & P & Hl & Hc & HP & Ha)] r. unfold r, string_insert.
  rewrite Hh. destruct (sig_ok t) as [-> Hlen]. rewrite Hl.
  cbn [fst snd]. rewrite insert_ok. split; [done|]. split; [done|]. split; [done|].
  assert (Hb : ids_below (doc_id s + 1) P) by (by eapply ids_below_next).
  exists (iops ++ [Insert (doc_id s + 1)%N (sg t)]), (P ++ [((doc_id s + 1)%N, t)]). cbn.
  split; [by rewrite after_insert|]. split.
  - apply (put_fresh iops P (doc_map s) cl ((doc_id s + 1)%N, t)); [|done].
    cbn. intros Hin. unfold ids_below in Hb. rewrite Forall_forall in Hb. specialize (Hb _ Hin). lia.
  - split; [by rewrite fmap_app, HP|]. eauto.
Qed.

Lemma load_lines_sinv s a cl ls :
  sinv s a cl ->
  let r := load_from_lines hash bh ls s in
  r.2 = false /\ doc_id r.1 = (doc_id s + N.of_nat (length (omap id ls)))%N /\
  sinv r.1 (match omap id ls with [] => a | ts => (a.1 ++ ts, true) end) cl.
Proof.
  revert s a. induction ls as [|[t|] ls IH]; intros s a Hi.
  - cbn. rewrite N.add_0_r. done.
  - destruct (insert_sinv s a cl t Hi) as (H1 & H2 & H3). cbn [load_from_lines].
    rewrite H1. destruct (IH _ _ H3) as (H4 & H5 & H6). split; [done|]. cbn. split.
    + rewrite H5, H2. lia.
    + destruct (omap Datatypes.id ls) eqn:E; [done|]. cbn in H6. by rewrite <- app_assoc in H6.
  - exact (IH s a Hi).
Qed.

Lemma bulk_ok iops sched (ps : list (N * list N)) :
  Forall (fun p => length p.2 = n) ps ->
  (par_bulk_insert_pairs (container KHashSet N) bh sched ps (idx iops)).2 = OUnit /\
  (par_bulk_insert_pairs (container KHashSet N) bh sched ps (idx iops)).1 =
    idx (iops ++ ((fun p => Insert p.1 p.2) <$> ps)).
Proof.
  intros Hps. split.
  - pose proof (bulk_pairs_inv (container KHashSet N) (container_laws_all KHashSet) bh nb bw th (idx iops)
      (spec_map n iops) sched ps (after_inv KHashSet bh nb bw th iops)) as Hi.
    destruct Hi as [_ ->]. unfold pairs_too_short. rewrite bool_decide_false; [done|].
    rewrite Exists_exists. intros (p & Hp & Hlt). rewrite Forall_forall in Hps.
    specialize (Hps p Hp). lia.
  - rewrite <- (bulk_insert_pairs_seq KHashSet bh nb bw th iops sched) by done.
    unfold after. by rewrite run_snoc.
Qed.

Lemma par_sigs sched (ps : list (N * text)) :
  par_map (fun line => sig ← text_signature hash hs line.2; Some (line.1, sig)) sched ps =
  Some ((fun p => (p.1, sg p.2)) <$> ps).
Proof.
  rewrite par_map_mapM. induction ps as [|[d t] ps IH]; [done|].
  cbn [mapM]. rewrite IH. cbn [snd fst]. destruct (sig_ok t) as [-> _]. done.
Qed.

Lemma load_parallel_sinv s a cl sched1 sched2 ls :
  sinv s a cl -> None ∉ ls ->
  let r := load_from_file_parallel hash bh sched1 sched2 (Some ls) s in
  r.2 = SOk (N.of_nat (length (omap id ls))) /\
  doc_id r.1 = (doc_id s + N.of_nat (length (omap id ls)))%N /\
  sinv r.1 (match omap id ls with
            | [] => a
            | ts => ((if a.2 then take (length a.1 - 1) a.1 else a.1) ++ ts, false)
            end) (cl /\ (a.2 = true -> omap id ls = [])).
Proof.
  intros [Hh (iops & P & Hl & Hc & HP & Ha)] Hls. cbn zeta.
  unfold load_from_file_parallel. rewrite number_lines_spec, decide_True by done.
  rewrite Hh, par_sigs. set (ts := omap Datatypes.id ls). set (d := doc_id s) in *.
  rewrite Hl.
  destruct (bulk_ok iops sched2 ((fun p => (p.1, sg p.2)) <$> numbered d ts)) as [H1 H2].
  { apply Forall_fmap, Forall_true. intros p. apply sig_ok. }
  rewrite H1. cbn [fst snd doc_id]. rewrite H2. unfold string_size. cbn [doc_id].
  rewrite numbered_length. split; [f_equal; lia|]. split; [done|].
  split; [done|]. cbn [lsh_index doc_map doc_id].
  rewrite <- list_fmap_compose. unfold compose. cbn [fst snd].
  destruct ts as [|t ts'] eqn:Ets.
  - exists iops, P. cbn. rewrite app_nil_r. rewrite N.add_0_r. split; [done|]. split.
    + destruct Hc as [H3 H4 H5 H6]. split; try done. tauto.
    + done.
  - destruct a as [l [|]]; cbn [fst snd] in *.
    + destruct Ha as (P0 & t0 & -> & Hb0).
      pose proof (put_last iops P0 (doc_map s) cl (d, t) t0 Hc) as Hc1. cbn [fst snd] in Hc1.
      assert (Hb1 : ids_below (d + 1) (P0 ++ [(d, t)])).
      { unfold ids_below in *. rewrite fmap_app. apply Forall_app. split.
        - eapply Forall_impl; [exact Hb0|]. cbn. intros; lia.
        - constructor; [cbn; lia|constructor]. }
      destruct (put_many (d + 1) ts' _ _ _ _ Hb1 Hc1) as [Hc2 Hb2].
      exists (iops ++ ((fun p => ins p) <$> numbered d (t :: ts'))), (P0 ++ numbered d (t :: ts')).
      split; [done|]. rewrite <- !app_assoc in Hc2. cbn [app] in Hc2.
      cbn [numbered fmap list_fmap fold_left fst snd]. split; [|split].
      * destruct Hc2 as [H3 H4 H5 H6]. split; try done. intros [_ Hn]. exfalso. by specialize (Hn eq_refl).
      * rewrite <- HP, !fmap_app, app_length. cbn [fmap list_fmap length snd].
        rewrite Nat.add_sub, take_app. f_equal. cbn. f_equal. apply numbered_snd.
      * rewrite <- app_assoc in Hb2. cbn [app] in Hb2. cbn [length].
        by replace (d + N.of_nat (S (length ts')))%N with (d + 1 + N.of_nat (length ts'))%N by lia.
    + destruct (put_many d (t :: ts') iops P (doc_map s) cl Ha Hc) as [Hc2 Hb2].
      eexists _, _. split; [done|]. split; [|split].
      * destruct Hc2 as [H3 H4 H5 H6]. split; try done. tauto.
      * by rewrite fmap_app, HP, numbered_snd.
      * done.
Qed.

Lemma step_sinv s a cl o :
  sinv s a cl ->
  let r := string_step hash bh s o in
  r.2 = string_spec_out o /\ doc_id r.1 = (doc_id s + N.of_nat (length (adds o)))%N /\
  sinv r.1 (live_step a o) (cl /\ (parallel o = true -> a.2 = true -> adds o = [])).
Proof.
  intros Hi.
  assert (Hw : forall s' b cl', sinv s' b cl' -> parallel o = false ->
    sinv s' b (cl' /\ (parallel o = true -> a.2 = true -> adds o = []))).
  { intros s' b cl' [H1 (iops & P & H2 & [H3 H4 H5 H6] & H7)] _. split; [done|].
    exists iops, P. split; [done|]. split; [|done]. split; try done. tauto. }
  destruct o as [t|ls|[ls|]|sc1 sc2 [ls|]]; cbn [string_step string_spec_out].
  - destruct (insert_sinv s a cl t Hi) as (H1 & H2 & H3). cbn [fst snd]. rewrite H1.
    split; [done|]. split; [done|]. apply Hw; done.
  - destruct (load_lines_sinv s a cl ls Hi) as (H1 & H2 & H3). cbn [fst snd]. rewrite H1.
    split; [done|]. split; [done|]. apply Hw; done.
  - destruct (load_lines_sinv s a cl ls Hi) as (H1 & H2 & H3). cbn [load_from_file fst snd]. rewrite H1.
    split; [unfold string_size; rewrite H2; cbn; f_equal; lia|]. split; [done|]. apply Hw; done.
  - cbn. rewrite N.add_0_r. split; [done|]. split; [done|]. apply Hw; done.
  - unfold live_step, adds, all_readable, readable. cbn [parallel].
    destruct (decide (None ∈ ls)) as [Hin|Hnin].
    + rewrite bool_decide_false by tauto. cbn [length]. rewrite N.add_0_r.
      unfold load_from_file_parallel. rewrite number_lines_spec, decide_False by tauto. cbn.
      split; [done|]. split; [done|].
      destruct Hi as [H1 (iops & P & H2 & [H3 H4 H5 H6] & H7)]. split; [done|].
      exists iops, P. split; [done|]. split; [|done]. split; try done. tauto.
    + rewrite bool_decide_true by done.
      destruct (load_parallel_sinv s a cl sc1 sc2 ls Hi Hnin) as (H1 & H2 & H3).
      split; [done|]. split; [done|].
      destruct H3 as [H1' (iops & P & H2' & [H3 H4 H5 H6] & H7)]. split; [done|].
      exists iops, P. split; [done|]. split; [|done]. split; try done. tauto.
  - cbn. rewrite N.add_0_r. split; [done|]. split; [done|].
    destruct Hi as [H1 (iops & P & H2 & [H3 H4 H5 H6] & H7)]. split; [done|].
    exists iops, P. split; [done|]. split; [|done]. split; try done. tauto.
Qed.

Lemma run_sinv s a cl ops :
  sinv s a cl ->
  doc_id (string_run hash bh s ops) = (doc_id s + N.of_nat (length (added ops)))%N /\
  sinv (string_run hash bh s ops) (fold_left live_step ops a) (cl /\ lossless_from a.2 ops).
Proof.
  revert s a cl. induction ops as [|o ops IH]; intros s a cl Hi.
  - cbn. rewrite N.add_0_r. split; [done|].
    destruct Hi as [H1 (iops & P & H2 & [H3 H4 H5 H6] & H7)]. split; [done|].
    exists iops, P. split; [done|]. split; [|done]. split; try done. tauto.
  - destruct (step_sinv s a cl o Hi) as (_ & Hd & Hi').
    change (string_run hash bh s (o :: ops)) with (string_run hash bh (string_step hash bh s o).1 ops).
    destruct (IH _ _ _ Hi') as [H1 H2]. split.
    + rewrite H1, Hd. unfold added. cbn. rewrite app_length. lia.
    + cbn [fold_left].
      destruct H2 as [H1' (iops & P & H2' & [H3 H4 H5 H6] & H7)]. split; [done|].
      exists iops, P. split; [done|]. split; [|done]. split; try done.
      intros (Hcl & Hl1 & Hl2). apply H6. split; [done|].
      unfold live_step. destruct (adds o); [done|]. by destruct (parallel o).
Qed.

Lemma after_sinv ops :
  string_size (string_after hash draws bh nb bw th ops) = N.of_nat (length (added ops)) /\
  sinv (string_after hash draws bh nb bw th ops) (fold_left live_step ops ([], false)) (lossless ops).
Proof.
  destruct (run_sinv _ _ _ ops new_sinv) as [H1 H2]. split; [done|].
  destruct H2 as [H1' (iops & P & H2' & [H3 H4 H5 H6] & H7)]. split; [done|].
  exists iops, P. split; [done|]. split; [|done]. split; try done. intros; apply H6; done.
Qed.

Lemma lossless_live ops : lossless ops -> live ops = added ops.
Proof.
  unfold lossless, live.
  assert (Hg : forall ops l f, lossless_from f ops ->
    (fold_left live_step ops (l, f)).1 = l ++ added ops).
  { clear ops. induction ops as [|o ops IH]; intros l f Hl.
    - cbn. by rewrite app_nil_r.
    - destruct Hl as [Hl1 Hl2]. cbn [fold_left]. unfold added. cbn [fmap list_fmap concat].
      unfold live_step at 2. destruct (adds o) as [|t ts] eqn:E; [by apply IH|].
      destruct (parallel o) eqn:Ep; cbn [fst snd].
      + destruct f; [by specialize (Hl1 eq_refl eq_refl)|].
        rewrite IH by done. by rewrite app_assoc.
      + rewrite IH by done. by rewrite app_assoc. }
  intros Hl. by rewrite (Hg ops [] false Hl).
Qed.

(** ** Queries *)
Lemma query_texts (docs : gmap N text) P (S : gset N) (order : gset N -> list N) :
  is_order order -> docs = list_to_map P -> NoDup P.*1 ->
  (forall x, x ∈ S -> x ∈ P.*1) ->
  exists r, mapM (fun x => docs !! x) (order S) = Some r /\
    r ≡ₚ (filter (fun p => p.1 ∈ S) P).*2.
Proof.
  intros Ho -> Hnd HS.
  assert (Hsub : forall P' , P' `sublist_of` P ->
    mapM (fun x => (list_to_map P : gmap N text) !! x) P'.*1 = Some P'.*2).
  { induction P' as [|[x t] P' IH]; intros Hsub; [done|].
    cbn [fmap list_fmap mapM fst snd]. rewrite IH by (by eapply sublist_cons_l_inv || (etrans; [|exact Hsub]; by apply sublist_cons)).
    rewrite (elem_of_list_to_map_1 P x t) by (done || (eapply elem_of_submseteq; [|by apply sublist_submseteq]; set_solver)).
    done. }
  apply (mapM_perm _ (filter (fun p => p.1 ∈ S) P).*1).
  - rewrite (Ho S). apply NoDup_Permutation.
    + eapply sublist_NoDup; [exact Hnd|]. apply fmap_sublist. apply sublist_filter.
    + apply NoDup_elements.
    + intros x. rewrite elem_of_elements, elem_of_list_fmap. split.
      * intros (p & -> & Hp). by apply elem_of_list_filter in Hp as [? _].
      * intros Hx. pose proof (HS x Hx) as Hx'. apply elem_of_list_fmap in Hx' as (p & -> & Hp).
        exists p. split; [done|]. by apply elem_of_list_filter.
  - apply Hsub. apply sublist_filter.
Qed.

Lemma string_query_bounds ops q order :
  is_order order ->
  exists r, string_query hash bh order (string_after hash draws bh nb bw th ops) q = Some r /\
    r ⊆+ filter (similar hash draws nb bw th q) (live ops) /\
    filter (fun t => similar hash draws nb bw th q t /\ meets hash draws bh nb bw q t) (live ops) ⊆+ r /\
    (lossless ops ->
     r ≡ₚ filter (fun t => similar hash draws nb bw th q t /\ meets hash draws bh nb bw q t) (added ops)).
Proof.
  intros Ho. destruct (after_sinv ops) as [_ [Hh (iops & P & Hl & [Hd Hnd Hs Hcl] & HP & _)]].
  set (s := string_after hash draws bh nb bw th ops) in *.
  destruct (sig_ok q) as [Hq Hql].
  assert (Hw : well_sized n (spec_map n iops)).
  { rewrite Hs. intros x sx. rewrite lookup_fmap. intros (t & _ & ->)%fmap_Some. apply sig_ok. }
  destruct (query_exact_general (container KHashSet N) bh nb bw th _ _ (sg q)
    (after_inv KHashSet bh nb bw th iops) Hw Hql) as (S & HS & Hin).
  assert (Hlook : forall p, p ∈ P -> spec_map n iops !! p.1 = Some (sg p.2)).
  { intros [x t] Hp. rewrite Hs, lookup_fmap, Hd. cbn.
    by rewrite (elem_of_list_to_map_1 P x t). }
  assert (HSP : forall x, x ∈ S -> x ∈ P.*1).
  { intros x Hx. apply Hin in Hx as [_ (sx & Hsx & _)].
    rewrite Hs, lookup_fmap in Hsx. apply fmap_Some in Hsx as (t & Ht & _).
    rewrite Hd in Ht. apply elem_of_list_to_map_2 in Ht. apply elem_of_list_fmap.
    by exists (x, t). }
  destruct (query_texts (doc_map s) P S order Ho Hd Hnd HSP) as (r & Hr & Hrp).
  exists r. split.
  { unfold string_query. rewrite Hh, Hq. cbn [mbind option_bind]. rewrite Hl, HS.
    cbn [mbind option_bind]. exact Hr. }
  assert (Hup : forall p, p ∈ P -> p.1 ∈ S -> similar hash draws nb bw th q p.2).
  { intros p Hp Hx. apply Hin in Hx as [_ (sx & Hsx & Hge)].
    rewrite (Hlook p Hp) in Hsx. injection Hsx as <-. exact Hge. }
  assert (Hlow : forall p, p ∈ P ->
    similar hash draws nb bw th q p.2 /\ meets hash draws bh nb bw q p.2 -> p.1 ∈ S).
  { intros p Hp [Hsim Hm]. apply Hin. split; [|exists (sg p.2); split; [by apply Hlook|exact Hsim]].
    apply Exists_exists in Hm as (i & Hi & Hb). apply elem_of_seq in Hi.
    pose proof (after_inv KHashSet bh nb bw th iops) as HI.
    destruct (bands_lookup (container KHashSet N) bh nb bw th _ _ i HI ltac:(lia)) as [b Hbi].
    exists i, b. split; [done|]. destruct (inv_band _ _ _ _ _ _ _ HI _ _ Hbi) as [_ Hcov].
    specialize (Hcov p.1 (sg p.2) (Hlook p Hp)).
    by rewrite <- Hb. }
  unfold live. rewrite <- HP, !filter_snd. rewrite Hrp.
  split; [|split].
  - apply sublist_submseteq, fmap_sublist, filter_sublist_weaken. auto.
  - apply sublist_submseteq, fmap_sublist, filter_sublist_weaken. auto.
  - intros Hll. rewrite <- (lossless_live ops Hll). unfold live. rewrite <- HP, filter_snd.
    erewrite filter_iff_in; [reflexivity|].
    intros p Hp. split; [|auto]. intros Hx. split; [auto|].
    pose proof (after_exact KHashSet bh nb bw th iops (Hcl Hll)) as Hex.
    apply Hin in Hx as [Hband _].
    apply (in_bands_exact (container KHashSet N) bh nb bw th _ _ (sg q) p.1
      (after_inv KHashSet bh nb bw th iops) Hex) in Hband as (sx & Hsx & i & Hi & Hb).
    rewrite (Hlook p Hp) in Hsx. injection Hsx as <-. apply Exists_exists. exists i.
    split; [apply elem_of_seq; lia|done].
Qed.

Lemma string_self_query ops q order :
  is_order order -> lossless ops ->
  0 < nb -> 0 < bw -> (N.of_nat n <= 2 ^ 53)%N -> f64_ge f64_one th = true -> q ∈ added ops ->
  exists r, string_query hash bh order (string_after hash draws bh nb bw th ops) q = Some r /\ q ∈ r.
Proof.
  intros Ho Hll Hnb Hbw Hn Hth Hin.
  destruct (string_query_bounds ops q order Ho) as (r & Hr & _ & _ & Hex). exists r. split; [done|].
  rewrite (Hex Hll). apply elem_of_list_filter. split; [|done].
  destruct (sig_ok q) as [_ Hl]. split.
  - unfold similar. rewrite sim_refl; [done| |by rewrite Hl]. rewrite Hl. nia.
  - apply Exists_exists. exists 0. split; [apply elem_of_seq; lia|done].
Qed.

Lemma string_outputs ops o :
  (string_step hash bh (string_after hash draws bh nb bw th ops) o).2 = string_spec_out o.
Proof. eapply step_sinv, after_sinv. Qed.
End Facts.

Lemma serial_lossless ops : Forall (fun o => parallel o = false) ops -> lossless ops.
Proof.
  unfold lossless. generalize false at 2 as f. induction ops as [|o ops IH]; intros f Ho; [done|].
  apply Forall_cons in Ho as [H1 H2]. split; [congruence|]. auto.
Qed.

Lemma parallel_lossless ops : Forall (fun o => parallel o = true) ops -> lossless ops.
Proof.
  unfold lossless. induction ops as [|o ops IH]; intros Ho; [done|].
  apply Forall_cons in Ho as [H1 H2]. split; [done|]. rewrite H1. cbn. destruct (adds o); auto.
Qed.
