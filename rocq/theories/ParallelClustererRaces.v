(** Data races of the parallel clusterer. *)
From stdpp Require Import base list gmap.
From Coq Require Import NArith.
From Verif Require Import ListFacts Base ParallelClusterer SpecParallel ParallelClustererFacts ParallelClustererSeparate.
Local Open Scope nat_scope.

Section Races.
Context {P : Type} `{Countable P}.
Context (query : P -> res (list P)) (min : nat) (checks : bool).
Context (Hnd : forall p found, query p = Some found -> NoDup found).
Notation memory := (memory P).
Notation thread := (thread P).
Notation system := (system (P := P)).
Notation thread_step := (thread_step query min checks).
Notation system_step := (system_step query min checks).
Notation run_schedule := (run_schedule query min checks).
Notation trace := (trace query min checks).
Notation accesses := (accesses query checks).
Implicit Types (m : memory) (t : thread) (a c : N) (tr : list (nat * (N * access))).

(** Points the attempt has seen unassigned and not yet visited; the box in conflict. *)
Definition ahead (x : pc P) : list P :=
  match x with
  | Filter qs acc => acc
  | Alloc pts => pts
  | Check _ _ rest _ | Assign _ _ rest _ | Undo _ _ _ (Some (rest, _)) => rest
  | Conflict1 _ _ _ rest _ _ | Conflict2 _ _ _ rest _ _ | Conflict3 _ _ _ rest _ _ | Conflict4 _ _ _ rest _ _ => rest
  | _ => []
  end.
Definition coming (x : pc P) : list P := match x with Filter qs _ => qs | _ => [] end.

Record good m0 (s : system) tr : Prop := {
  g_seq : (sequence m0 <= sequence (mem s))%N;
  g_range : forall i c, (i, (c, Init)) ∈ tr -> (sequence m0 < c <= sequence (mem s))%N;
  g_unique : forall i j c, (i, (c, Init)) ∈ tr -> (j, (c, Init)) ∈ tr -> i = j;
  g_made : forall c, (sequence m0 < c <= sequence (mem s))%N -> exists i, (i, (c, Init)) ∈ tr;
  g_owner : forall i t a, threads s !! i = Some t -> a ∈ ids t -> (i, (a, Init)) ∈ tr;
  g_cells : forall x c, cells (mem s) !! x = Some c ->
     (c <= sequence (mem s))%N /\ ((c <= sequence m0)%N -> exists y, cells m0 !! y = Some c);
  g_nodup : forall i t, threads s !! i = Some t -> NoDup (ahead (at_pc t) ++ coming (at_pc t));
  g_ahead : forall i t x c, threads s !! i = Some t -> x ∈ ahead (at_pc t) -> cells (mem s) !! x = Some c ->
     (i, (c, Init)) ∉ tr;
  g_conflict : forall i t c, threads s !! i = Some t -> conflict t = Some c ->
     ((c <= sequence (mem s))%N /\ ((c <= sequence m0)%N -> exists y, cells m0 !! y = Some c)) /\ (i, (c, Init)) ∉ tr;
}.

(** What a step does to the cells, the sequence and the thread. *)
Record effect m t m' t' : Prop := {
  e_cells : forall x c, cells m' !! x = Some c -> cells m !! x = Some c \/ (owner (at_pc t) = Some c /\ x ∉ ahead (at_pc t'));
  e_seq : (sequence m' = sequence m /\ forall p, at_pc t <> Alloc p) \/
          (sequence m' = (sequence m + 1)%N /\ exists p, at_pc t = Alloc p);
  e_owner : forall a, owner (at_pc t') = Some a -> owner (at_pc t) = Some a \/
          (a = (sequence m + 1)%N /\ exists p, at_pc t = Alloc p);
  e_nodup : NoDup (ahead (at_pc t) ++ coming (at_pc t)) -> NoDup (ahead (at_pc t') ++ coming (at_pc t'));
  e_ahead : NoDup (ahead (at_pc t) ++ coming (at_pc t)) ->
     forall x, x ∈ ahead (at_pc t') -> x ∈ ahead (at_pc t) \/ cells m' !! x = None;
  e_conflict : forall c, conflict t' = Some c -> conflict t = Some c \/
     exists x, x ∈ ahead (at_pc t) /\ cells m !! x = Some c;
}.

Lemma set_state_mem st a m m' ok : set_state_from_new st a m = Some (m', ok) -> cells m' = cells m /\ sequence m' = sequence m.
Proof.
  unfold set_state_from_new. destruct (deref m a) as [b|]; [|done]. cbn.
  destruct (state b =? 0)%N; intros [= <- <-]; done.
Qed.

Lemma drop_mem a m : cells (drop_box a m) = cells m /\ sequence (drop_box a m) = sequence m.
Proof. unfold drop_box. by destruct (boxes m !! a). Qed.

Ltac easy_effect := split; cbn; try done; try (by left); try (left; split; [done|congruence]); try (intros; by left); auto; try (intros _; exact NoDup_nil_2);
  try (by intros ? ? ?%elem_of_nil); try (intros ? ?; by left).

Lemma unwind_effect m m1 t : cells m1 = cells m -> sequence m1 = sequence m -> (forall p, at_pc t <> Alloc p) ->
  effect m t (unwind t m1).1 (unwind t m1).2.
Proof.
  intros Hc Hs Ha. unfold unwind. cbn [fst snd]. destruct (drop_boxes_eq (clusters t) m1) as (E1 & E2 & _). rewrite Hc in E1. rewrite Hs in E2.
  split; cbn; rewrite ?E1, ?E2; try done; auto; try (left; split; [done|congruence]); try (intros _; exact NoDup_nil_2); by intros ? ? ?%elem_of_nil.
Qed.

Lemma step_effect m t m' t' : thread_step m t = Some (m', t') -> NoDup (ahead (at_pc t) ++ coming (at_pc t)) -> effect m t m' t'.
Proof.
  intros Hst Hn. destruct t as [x td cl]. unfold ParallelClusterer.thread_step in Hst. cbn [at_pc todo clusters] in *.
  destruct x as [|qs acc|pts|a own rest i|a own pending k|a own rest i|a own p rest i c
    |a own p rest i c|a own p rest i c|a own p rest i c|a own|a own| |]; cbn [ahead coming] in Hn.
  - destruct td as [|p td]; [injection Hst as <- <-; easy_effect|].
    destruct (cells m !! p); [injection Hst as <- <-; easy_effect|].
    destruct (query p) as [found|] eqn:Eq; injection Hst as <- <-.
    { easy_effect. intros _. by eapply Hnd. }
    by apply (unwind_effect m m (Thread Next (p :: td) cl)).
  - destruct qs as [|q qs].
    + destruct (min <=? length acc); injection Hst as <- <-; easy_effect.
    + destruct (cells m !! q) eqn:Eq; injection Hst as <- <-; easy_effect.
      * intros _. eapply sublist_NoDup; [exact Hn|]. apply sublist_app; [done|]. by apply sublist_cons.
      * intros _. by rewrite <- app_assoc.
      * intros _ x [Hx|Hx]%elem_of_app; [by left|]. apply elem_of_list_singleton in Hx as ->. by right.
  - injection Hst as <- <-. easy_effect.
    + right. split; [done|]. eauto.
    + intros a [= <-]. right. split; [done|]. eauto.
  - destruct rest as [|p rest].
    + injection Hst as <- <-. easy_effect.
    + destruct (is_rolled_back m a) as [[]|]; [| |done]; injection Hst as <- <-; easy_effect.
  - destruct pending as [|p pending].
    + destruct k as [[rest i]|]; injection Hst as <- <-; easy_effect.
      * destruct (drop_mem a m) as [-> _]. by left.
      * left. split; [apply drop_mem|congruence].
    + injection Hst as <- <-. unfold unassign. destruct (decide (cells m !! p = Some a)).
      * easy_effect. intros x c Hx. left. apply lookup_delete_Some in Hx as [_ Hx]. done.
      * easy_effect.
  - destruct rest as [|p rest]; [injection Hst as <- <-; easy_effect|].
    unfold assign_cluster in Hst. destruct (cells m !! p) as [c|] eqn:Ep; injection Hst as <- <-.
    + easy_effect.
      * rewrite app_nil_r in *. intros _. by apply NoDup_cons in Hn as [_ Hn].
      * intros _ x Hx. left. by right.
      * intros c' [= <-]. right. exists p. split; [left|done].
    + split; cbn; try done.
      * intros x c Hx. apply lookup_insert_Some in Hx as [[<- <-]|[_ Hx]]; [right|by left].
        split; [done|]. rewrite app_nil_r in Hn. by apply NoDup_cons in Hn as [Hn _].
      * left. split; [done|congruence].
      * auto.
      * rewrite !app_nil_r. intros _. rewrite app_nil_r in Hn. by apply NoDup_cons in Hn as [_ Hn].
      * intros _ x Hx. left. by right.
  - destruct (is_commited m c) as [[]|]; [| |done]; injection Hst as <- <-; easy_effect.
  - destruct (is_rolled_back m c) as [[]|]; [destruct (checks && (i =? 0))%bool| |done]; injection Hst as <- <-; try by easy_effect.
    by apply (unwind_effect m _ (Thread (Conflict2 a own p rest i c) td cl)); [apply drop_mem..|].
  - destruct (deref m c); [|done]. cbn in Hst. destruct (c <? a)%N; injection Hst as <- <-; easy_effect.
  - destruct (rollback c m) as [[m1 ok]|] eqn:Er; [|done]. apply set_state_mem in Er as [E1 E2].
    cbn in Hst. destruct ok; injection Hst as <- <-; split; cbn; rewrite ?E1, ?E2; try done; auto; try (left; split; [done|congruence]); try (intros _; exact NoDup_nil_2); by intros ? ? ?%elem_of_nil.
  - destruct (rollback a m) as [[m1 ok]|] eqn:Er; [|done]. apply set_state_mem in Er as [E1 E2].
    injection Hst as <- <-; split; cbn; rewrite ?E1, ?E2; try done; auto; try (left; split; [done|congruence]); try (intros _; exact NoDup_nil_2); by intros ? ? ?%elem_of_nil.
  - destruct (commit a m) as [[m1 ok]|] eqn:Er; [|done]. apply set_state_mem in Er as [E1 E2].
    cbn in Hst. destruct ok; injection Hst as <- <-; split; cbn; rewrite ?E1, ?E2; try done; auto; try (left; split; [done|congruence]); try (intros _; exact NoDup_nil_2); by intros ? ? ?%elem_of_nil.
  - injection Hst as <- <-. easy_effect.
  - injection Hst as <- <-. easy_effect.
Qed.

Lemma step_ids m t m' t' : thread_step m t = Some (m', t') -> forall a, a ∈ ids t' ->
  a ∈ ids t \/ (a = (sequence m + 1)%N /\ exists p, at_pc t = Alloc p).
Proof.
  intros Hst a. rewrite !ids_elem. destruct t as [x td cl]. unfold ParallelClusterer.thread_step in Hst. cbn [at_pc todo clusters] in *.
  destruct x as [|qs acc|pts|b own rest i|b own pending k|b own rest i|b own p rest i c
    |b own p rest i c|b own p rest i c|b own p rest i c|b own|b own| |].
  - destruct td as [|p td]; [injection Hst as <- <-; by left|].
    destruct (cells m !! p); [injection Hst as <- <-; by left|].
    destruct (query p) as [found|] eqn:Eq; injection Hst as <- <-; [by left|].
    cbn. intros [(own & Ho)|?]; [by apply elem_of_nil in Ho|done].
  - destruct qs as [|q qs]; [destruct (min <=? length acc)|destruct (cells m !! q)]; injection Hst as <- <-; by left.
  - injection Hst as <- <-. cbn. intros [Ho|[= <-]]; [by left; left|]. right. eauto.
  - destruct rest as [|p rest]; [injection Hst as <- <-; by left|].
    destruct (is_rolled_back m b) as [[]|]; [| |done]; injection Hst as <- <-; by left.
  - destruct pending as [|p pending]; [destruct k as [[rest i]|]|]; injection Hst as <- <-; cbn; [by left| |by left].
    intros [Ho|?]; [by left; left|done].
  - destruct rest as [|p rest]; [injection Hst as <- <-; by left|].
    unfold assign_cluster in Hst. destruct (cells m !! p) as [c|]; injection Hst as <- <-; by left.
  - destruct (is_commited m c) as [[]|]; [| |done]; injection Hst as <- <-; by left.
  - destruct (is_rolled_back m c) as [[]|]; [destruct (checks && (i =? 0))%bool| |done]; injection Hst as <- <-; [|by left..].
    cbn. intros [(own' & Ho)|?]; [by apply elem_of_nil in Ho|done].
  - destruct (deref m c); [|done]. cbn in Hst. destruct (c <? b)%N; injection Hst as <- <-; by left.
  - destruct (rollback c m) as [[m1 ok]|]; [|done]. cbn in Hst. destruct ok; injection Hst as <- <-; by left.
  - destruct (rollback b m) as [[m1 ok]|]; [|done]. injection Hst as <- <-. by left.
  - destruct (commit b m) as [[m1 ok]|]; [|done]. cbn in Hst. destruct ok; injection Hst as <- <-; [|by left].
    cbn. intros [(own' & Ho)|?]; [|done]. left. apply elem_of_app in Ho as [Ho|Ho]; [left; eauto|].
    apply elem_of_list_singleton in Ho as [= -> ->]. by right.
  - injection Hst as <- <-. by left.
  - injection Hst as <- <-. by left.
Qed.
Lemma owner_ids t a : owner (at_pc t) = Some a -> a ∈ ids t.
Proof. intros Ho. apply ids_elem. by right. Qed.

Lemma dropped_free (cl : list (N * list P)) c x : (c, x) ∈ (fun y => (y.1, Free)) <$> cl -> x = Free /\ c ∈ cl.*1.
Proof.
  intros (y & [= -> ->] & Hy)%elem_of_list_fmap. split; [done|]. apply elem_of_list_fmap. eauto.
Qed.

Lemma accesses_init m t c : (c, Init) ∈ accesses m t <-> c = (sequence m + 1)%N /\ exists p, at_pc t = Alloc p.
Proof.
  assert (Hd : (c, Init) ∈ (fun y => (y.1, Free)) <$> clusters t -> False) by (by intros [? _]%dropped_free).
  unfold SpecParallel.accesses. destruct (at_pc t) as [|qs acc|pts|a own [|x rest] i|a own [|x pending] [k|]|a own rest i|a own p rest i c'
    |a own p rest i c'|a own p rest i c'|a own p rest i c'|a own|a own| |].
  1: destruct (todo t) as [|p td]; [|destruct (cells m !! p), (query p)].
  all: try (destruct (_ && _)%bool); rewrite ?elem_of_cons, ?elem_of_nil; naive_solver.
Qed.

Lemma good_step m0 s tr i : good m0 s tr -> good m0 (system_step s i) (tr ++ accesses_of query checks s i).
Proof.
  intros G. unfold ParallelClusterer.system_step, accesses_of. destruct (undefined s); [by rewrite app_nil_r|].
  destruct (threads s !! i) as [t|] eqn:Ei; [|by rewrite app_nil_r].
  set (ev := (fun e => (i, e)) <$> accesses (mem s) t).
  assert (Hin : forall j c, (j, (c, Init)) ∈ tr ++ ev <-> (j, (c, Init)) ∈ tr \/ (j = i /\ c = (sequence (mem s) + 1)%N /\ exists p, at_pc t = Alloc p)).
  { intros j c. rewrite elem_of_app. unfold ev. rewrite elem_of_list_fmap. split.
    - intros [Hl|(e & [= -> <-] & He)]; [by left|right]. by apply accesses_init in He.
    - intros [Hl|(-> & Hc)]; [by left|right]. exists (c, Init). split; [done|]. by apply accesses_init. }
  destruct G as [G0 G1 G2 G3 G4 G5 G6 G7 G8].
  destruct (thread_step (mem s) t) as [[m' t']|] eqn:Est.
  2: { (* undefined behaviour: no allocation *)
    assert (Hna : forall p, at_pc t <> Alloc p).
    { intros p E. unfold ParallelClusterer.thread_step in Est. by rewrite E in Est. }
    assert (Hin' : forall j c, (j, (c, Init)) ∈ tr ++ ev <-> (j, (c, Init)) ∈ tr).
    { intros j c. rewrite Hin. naive_solver. }
    split; cbn [threads mem]; try done.
    - intros j c Hc. apply Hin' in Hc. by apply G1 in Hc.
    - intros j k c Hj Hk. apply Hin' in Hj, Hk. by eapply G2.
    - intros c Hc. destruct (G3 c Hc) as [j Hj]. exists j. by apply Hin'.
    - intros j u a Hu Ha. apply Hin'. by eapply G4.
    - intros j u x c Hu Hx Hc Hj. apply Hin' in Hj. by eapply (G7 j).
    - intros j u c Hu Hc. destruct (G8 j u c Hu Hc) as [G81 G82]. split; [done|]. by rewrite Hin'. }
  destruct (step_effect _ _ _ _ Est (G6 i t Ei)) as [E1 E2 E3 E4 E5 E6]. specialize (E5 (G6 i t Ei)).
  assert (Hseq : (sequence (mem s) <= sequence m')%N) by (destruct E2 as [[-> _]|[-> _]]; lia).
  assert (Hl : forall j u, <[i:=t']> (threads s) !! j = Some u -> (j = i /\ u = t') \/ (j <> i /\ threads s !! j = Some u)).
  { intros j u Hu. destruct (decide (j = i)) as [->|Hne].
    - rewrite list_lookup_insert in Hu by (by eapply lookup_lt_Some). left. split; [done|congruence].
    - rewrite list_lookup_insert_ne in Hu by done. by right. }
  split; cbn [threads mem].
  - lia.
  - intros j c Hc. apply Hin in Hc as [Hc|(-> & -> & p & Hp)]; [specialize (G1 j c Hc); lia|].
    destruct E2 as [[_ E2]|[-> _]]; [by apply E2 in Hp|]. 
    lia.
  - intros j k c Hj Hk. apply Hin in Hj as [Hj|(-> & -> & _)], Hk as [Hk|(-> & Hk & _)]; subst; try done.
    + by eapply G2.
    + specialize (G1 _ _ Hj). lia.
    + specialize (G1 _ _ Hk). lia.
  - intros c Hc. setoid_rewrite Hin. destruct (decide (c <= sequence (mem s))%N) as [Hle|Hgt].
    + destruct (G3 c) as [j Hj]; [lia|]. eauto.
    + destruct E2 as [[E2 _]|[E2 Hp]]; [lia|]. exists i. right. split; [done|]. split; [lia|done].
  - intros j u a Hu Ha. apply Hin. apply Hl in Hu as [[-> ->]|[Hne Hu]].
    + destruct (step_ids _ _ _ _ Est a Ha) as [E|[-> Hp]]; [left|by right]. by eapply G4.
    + left. by eapply G4.
  - intros x c Hx. destruct (E1 x c Hx) as [Hx'|[Hx' _]]; [destruct (G5 _ _ Hx'); split; [lia|done]|].
    specialize (G1 _ _ (G4 _ _ _ Ei (owner_ids _ _ Hx'))). split; lia.
  - intros j u Hu. apply Hl in Hu as [[-> ->]|[Hne Hu]]; [apply E4|]; by eapply G6.
  - intros j u x c Hu Hx Hc. rewrite Hin. apply Hl in Hu as [[-> ->]|[Hne Hu]].
    + destruct (E5 x Hx) as [Hx'|Hx']; [|congruence].
      destruct (E1 x c Hc) as [Hc'|[_ Hn]]; [|done].
      intros [Hi|(_ & -> & _)]; [by eapply G7|]. specialize (G5 _ _ Hc'). lia.
    + intros [Hi|(-> & _)]; [|done]. destruct (E1 x c Hc) as [Hc'|[Hn _]]; [by eapply (G7 j)|].
      apply Hne. eapply G2; [exact Hi|by eapply G4, owner_ids].
  - intros j u c Hu Hc. apply Hl in Hu as [[-> ->]|[Hne Hu]].
    + assert (Hc' : ((c <= sequence (mem s))%N /\ ((c <= sequence m0)%N -> exists y, cells m0 !! y = Some c)) /\ (i, (c, Init)) ∉ tr).
      { destruct (E6 c Hc) as [Hc'|(x & Hx & Hc')]; [by apply (G8 i t)|]. split; [by eapply G5|by eapply G7]. }
      destruct Hc' as [[H1 H2] H3]. split; [split; [lia|done]|]. rewrite Hin. intros [Hi|(_ & -> & _)]; [done|lia].
    + destruct (G8 j u c Hu Hc) as [[G81 G83] G82]. split; [split; [lia|done]|]. rewrite Hin. by intros [Hi|(-> & _)].
Qed.

Lemma run_good m0 l s tr : good m0 s tr -> good m0 (run_schedule s l) (tr ++ trace s l).
Proof.
  revert s tr. induction l as [|i l IH]; intros s tr G; cbn; [by rewrite app_nil_r|].
  rewrite app_assoc. by apply IH, good_step.
Qed.

Lemma start_good m0 chunks : (forall x c, cells m0 !! x = Some c -> (c <= sequence m0)%N) ->
  good m0 (System m0 (cluster_slice_start query <$> chunks) false) [].
Proof.
  intros Hc. assert (Ht : forall i t, (cluster_slice_start query <$> chunks) !! i = Some t ->
    ahead (at_pc t) = [] /\ coming (at_pc t) = [] /\ ids t = [] /\ conflict t = None).
  { intros i t Hi. rewrite list_lookup_fmap in Hi. destruct (chunks !! i) as [ch|]; [|done]. injection Hi as <-. unfold cluster_slice_start.
    by destruct (sort_by_most_number_of_similar_points _ _). }
  split; cbn [mem threads].
  - done.
  - by intros i c ?%elem_of_nil.
  - by intros i j c ?%elem_of_nil.
  - intros c Hr. lia.
  - intros i t a Hi Ha. apply Ht in Hi as (_ & _ & Hi & _). rewrite Hi in Ha. by apply elem_of_nil in Ha.
  - intros x c Hx. split; [by eapply Hc|eauto].
  - intros i t Hi. apply Ht in Hi as (-> & -> & _). constructor.
  - intros i t x c Hi Hx. apply Ht in Hi as (Hi & _). rewrite Hi in Hx. by apply elem_of_nil in Hx.
  - intros i t c Hi Hx. apply Ht in Hi as (_ & _ & _ & Hi). congruence.
Qed.

(** An access to a box one did not make is one to the box of a conflict. *)
Lemma accesses_box m t c x : (c, x) ∈ accesses m t ->
  c ∈ ids t \/ x = Init \/ (x = Use /\ conflict t = Some c).
Proof.
  assert (Hd : (c, x) ∈ (fun y => (y.1, Free)) <$> clusters t -> c ∈ ids t).
  { intros [_ Hc]%dropped_free. unfold ids. apply elem_of_app. by left. }
  pose proof (owner_ids t c) as Ho.
  unfold SpecParallel.accesses, conflict. destruct (at_pc t) as [|qs acc|pts|a own [|y rest] i|a own [|y pending] [k|]|a own rest i|a own p rest i c'
    |a own p rest i c'|a own p rest i c'|a own p rest i c'|a own|a own| |]; cbn [owner] in Ho.
  1: destruct (todo t) as [|p td]; [|destruct (cells m !! p), (query p)].
  all: try (destruct (_ && _)%bool); rewrite ?elem_of_cons, ?elem_of_nil; naive_solver.
Qed.

Lemma trace_box m0 l s tr i c x : good m0 s tr -> (i, (c, x)) ∈ trace s l ->
  (i, (c, Init)) ∈ tr ++ trace s l \/
  exists n t, l !! n = Some i /\ undefined (run_schedule s (take n l)) = false /\
    threads (run_schedule s (take n l)) !! i = Some t /\ conflict t = Some c.
Proof.
  revert s tr. induction l as [|j l IH]; intros s tr G; cbn; [by intros ?%elem_of_nil|].
  intros [Hx|Hx]%elem_of_app.
  - unfold accesses_of in *. destruct (undefined s) eqn:Eu; [by apply elem_of_nil in Hx|].
    destruct (threads s !! j) as [t|] eqn:Ej; [|by apply elem_of_nil in Hx].
    apply elem_of_list_fmap in Hx as (e & [= -> <-] & Hx).
    destruct (accesses_box _ _ _ _ Hx) as [Ho|[->|[-> Hc]]].
    + left. apply elem_of_app. left. by eapply g_owner.
    + left. rewrite !elem_of_app. right. left. apply elem_of_list_fmap. by eexists (c, Init).
    + right. by exists 0, t.
  - destruct (IH _ _ (good_step m0 s tr j G) Hx) as [Hi|(n & t & Hn & Hu & Ht & Hc)].
    + left. by rewrite app_assoc.
    + right. by exists (S n), t.
Qed.

Section Start.
Context (m0 : memory) (chunks : list (list P)).
Context (Hm0 : forall x c, cells m0 !! x = Some c -> (c <= sequence m0)%N).
Notation s0 := (System m0 (cluster_slice_start query <$> chunks) false).

Lemma trace_app l l' s : trace s (l ++ l') = trace s l ++ trace (run_schedule s l) l'.
Proof. revert s. induction l as [|i l IH]; intros s; [done|]. cbn. by rewrite IH, app_assoc. Qed.

Lemma conflict_races l i t c : undefined (run_schedule s0 l) = false ->
  threads (run_schedule s0 l) !! i = Some t -> conflict t = Some c ->
  (exists x, cells m0 !! x = Some c) \/ (exists j, j <> i /\ (j, (c, Init)) ∈ trace s0 l) /\ races (trace s0 (l ++ [i])) c.
Proof.
  intros Hu Ht Hc. pose proof (run_good m0 l s0 [] (start_good m0 chunks Hm0)) as G. cbn in G.
  destruct (g_conflict _ _ _ G i t c Ht Hc) as [[H1 H2] H3].
  destruct (decide (c <= sequence m0)%N) as [Hle|Hgt]; [left; by apply H2|right].
  destruct (g_made _ _ _ G c) as [j Hj]; [lia|].
  assert (Hji : j <> i) by (intros ->; done).
  split; [by exists j|].
  exists j, i, Init, Use. rewrite trace_app, !elem_of_app. split; [by left|]. split; [|by auto].
  right. cbn. rewrite app_nil_r. unfold accesses_of. rewrite Hu, Ht. apply elem_of_list_fmap.
  exists (c, Use). split; [done|]. unfold conflict in Hc. unfold SpecParallel.accesses.
  destruct (at_pc t); try done; injection Hc as ->; by left.
Qed.

Lemma race_conflict l c : races (trace s0 l) c ->
  exists n i t, l !! n = Some i /\ undefined (run_schedule s0 (take n l)) = false /\
    threads (run_schedule s0 (take n l)) !! i = Some t /\ conflict t = Some c.
Proof.
  intros (i & j & x & y & Hi & Hj & Hij & _). pose proof (start_good m0 chunks Hm0) as G.
  pose proof (run_good m0 l s0 [] G) as G'. cbn in G'.
  destruct (trace_box m0 l s0 [] i c x G Hi) as [Hi'|(n & t & Hn)]; [|by exists n, i, t].
  destruct (trace_box m0 l s0 [] j c y G Hj) as [Hj'|(n & t & Hn)]; [|by exists n, j, t].
  destruct Hij. by eapply (g_unique _ _ _ G').
Qed.

Lemma separated_no_race l c :
  (forall ch p, ch ∈ chunks -> p ∈ ch -> is_Some (query p)) ->
  (forall i j ch ch' p q found x, i <> j -> chunks !! i = Some ch -> chunks !! j = Some ch' ->
    p ∈ ch -> query p = Some found -> x ∈ found ->
    q ∈ ch' -> x <> q /\ forall found', query q = Some found' -> x ∉ found') ->
  ~ races (trace s0 l) c.
Proof.
  intros Hq Hsep Hr. destruct (race_conflict l c Hr) as (n & i & t & _ & _ & Ht & Hc).
  assert (Hq' : forall ch p, ch ∈ chunks -> p ∈ ch -> exists found, query p = Some found /\ NoDup found).
  { intros ch p Hch Hp. destruct (Hq ch p Hch Hp) as [f Hf]. exists f. split; [done|]. by eapply Hnd. }
  assert (Hs : separated query chunks).
  { intros i' j ch ch' x q found Hij Hi Hj (p & Hp & Hx) Hq1 Hf Hin.
    destruct (Hsep j i' ch' ch q p found x (not_eq_sym Hij) Hj Hi Hq1 Hf Hin Hp) as [H1 H2].
    destruct Hx as [->|(f & Hf' & Hx)]; [done|]. by apply (H2 f). }
  pose proof (run_sinv query min checks m0 chunks Hq' Hs (take n l)) as Hi.
  destruct (lookup_lt_is_Some_2 chunks i) as [ch Hch].
  { rewrite <- (s_len _ _ _ _ _ Hi). by eapply lookup_lt_Some. }
  pose proof (f_pc _ _ _ _ _ _ (s_fine _ _ _ _ _ Hi i ch t Hch Ht)) as Hf.
  unfold conflict in Hc. destruct (at_pc t); done.
Qed.
End Start.

Lemma trace_thread l s i e : (i, e) ∈ trace s l -> i < length (threads s).
Proof.
  revert s. induction l as [|j l IH]; intros s; cbn; [by intros ?%elem_of_nil|].
  intros [Hx|Hx]%elem_of_app.
  - unfold accesses_of in Hx. destruct (undefined s); [by apply elem_of_nil in Hx|].
    destruct (threads s !! j) as [t|] eqn:Ej; [|by apply elem_of_nil in Hx].
    apply elem_of_list_fmap in Hx as (e' & [= -> <-] & Hx). by eapply lookup_lt_Some.
  - apply IH in Hx. unfold ParallelClusterer.system_step in Hx. destruct (undefined s); [done|].
    destruct (threads s !! j) as [t|]; [|done]. destruct (thread_step (mem s) t) as [[m' t']|]; [|done].
    cbn in Hx. by rewrite insert_length in Hx.
Qed.

Lemma single_no_race m0 chunks ch l c : chunks = [ch] ->
  ~ races (trace (System m0 (cluster_slice_start query <$> chunks) false) l) c.
Proof.
  intros -> (i & j & x & y & Hi & Hj & Hij & _). apply trace_thread in Hi, Hj. cbn in Hi, Hj. lia.
Qed.
End Races.
