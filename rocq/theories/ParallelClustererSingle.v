(** The parallel clusterer run by one thread, and a bound on the steps of any thread. *)
From stdpp Require Import base list gmap relations.
From Coq Require Import NArith Sorted.
From Verif Require Import ListFacts Base SerialClusterer SerialClustererFacts ParallelClusterer
  ParallelClustererFacts.
Local Open Scope nat_scope.

Section Single.
Context {P : Type} `{Countable P}.
Context (query : P -> res (list P)) (min : nat) (checks : bool).
Notation memory := (memory P).
Notation thread := (thread P).
Notation thread_step := (thread_step query min checks).
Notation system_step := (system_step query min checks).
Notation run_schedule := (run_schedule query min checks).
Implicit Types (m : memory) (t : thread) (a : N) (p : P).

Definition step (x y : memory * thread) : Prop := thread_step x.1 x.2 = Some y.

Lemma filter_run qs acc m td cl :
  rtc step (m, Thread (Filter qs acc) td cl)
    (m, Thread (Filter [] (acc ++ List.filter (fun x => match cells m !! x with None => true | _ => false end) qs)) td cl).
Proof.
  revert acc. induction qs as [|q qs IH]; intros acc; [rewrite app_nil_r; apply rtc_refl|].
  cbn [List.filter]. destruct (cells m !! q) eqn:E.
  - eapply rtc_l; [|apply IH]. unfold step. cbn. by rewrite E.
  - specialize (IH (acc ++ [q])). rewrite <- app_assoc in IH.
    eapply rtc_l; [|exact IH]. unfold step. cbn. by rewrite E.
Qed.

Lemma create_acc ps a (x : gmap P N) acc acc' :
  (create_new_cluster ps a x acc).2 = (create_new_cluster ps a x acc').2.
Proof. revert x acc acc'. induction ps as [|p ps IH]; intros x acc acc'; [done|]. cbn. apply IH. Qed.

Lemma attempt_run rest a own i m td cl :
  boxes m !! a = Some (Box 0 false) -> (forall p, p ∈ rest -> cells m !! p = None) -> NoDup rest ->
  rtc step (m, Thread (Check a own rest i) td cl)
    (set_cells (create_new_cluster rest a (cells m) []).2 m, Thread (Commit a (own ++ rest)) td cl).
Proof.
  revert own i m. induction rest as [|p rest IH]; intros own i m Hb Hn Hnd.
  - rewrite app_nil_r. eapply rtc_l; [|apply rtc_refl]. unfold step. by destruct m.
  - apply NoDup_cons in Hnd as [Hp Hnd].
    eapply rtc_l. { unfold step. cbn. unfold is_rolled_back, deref. rewrite Hb. done. }
    eapply rtc_l. { unfold step. cbn. unfold assign_cluster. rewrite (Hn p) by set_solver. done. }
    replace (own ++ p :: rest) with ((own ++ [p]) ++ rest) by by rewrite <- app_assoc.
    cbn [create_new_cluster]. rewrite (create_acc _ _ _ ([] ++ [p]) []).
    specialize (IH (own ++ [p]) (i + 1) (set_cells (<[p := a]> (cells m)) m)).
    apply IH; [done| |done].
    intros q Hq. cbn. rewrite lookup_insert_ne by set_solver. apply Hn. set_solver.
Qed.

Definition pair_of (c : cluster P) : N * list P := (c_id c, c_points c).

Lemma single_loop td m cs mc cs' :
  (forall p, p ∈ td -> exists found, query p = Some found /\ NoDup found) ->
  greedy query (fun n => min <=? n) td (sequence m) (cells m) cs = (mc, Some cs') ->
  exists m' new, rtc step (m, Thread Next td (pair_of <$> cs)) (m', Thread Done [] (pair_of <$> cs')) /\
    cells m' = mc /\ cs' = cs ++ new /\ (sequence m' = sequence m + N.of_nat (length new))%N /\
    (forall c, c ∈ new -> boxes m' !! c_id c = Some (Box 1 false)) /\
    (forall c, c ∈ new -> sequence m < c_id c)%N /\
    (forall a, (a <= sequence m)%N -> boxes m' !! a = boxes m !! a).
Proof.
  revert m cs. induction td as [|p td IH]; intros m cs Hq Hg.
  - cbn in Hg. injection Hg as <- <-. exists m, []. split.
    { eapply rtc_l; [|apply rtc_refl]. done. }
    rewrite app_nil_r. cbn. split_and!; try done; [lia|set_solver|set_solver].
  - assert (Hq' : forall p, p ∈ td -> exists found, query p = Some found /\ NoDup found).
    { intros q Hin. apply Hq. set_solver. }
    cbn [greedy] in Hg. destruct (cells m !! p) as [c|] eqn:Ep.
    + destruct (IH m cs Hq' Hg) as (m' & new & Hr & Hrest). exists m', new. split; [|done].
      eapply rtc_l; [|exact Hr]. unfold step. cbn. by rewrite Ep.
    + destruct (Hq p ltac:(set_solver)) as (found & Hf & Hnd). rewrite Hf in Hg. cbn zeta in Hg.
      set (sim := List.filter (fun x => match cells m !! x with None => true | _ => false end) found) in *.
      assert (H1 : rtc step (m, Thread Next (p :: td) (pair_of <$> cs))
                     (m, Thread (Filter [] sim) td (pair_of <$> cs))).
      { eapply rtc_l. { unfold step. cbn. rewrite Ep, Hf. done. } apply (filter_run found [] m). }
      destruct (min <=? length sim) eqn:Eb.
      * set (a := (sequence m + 1)%N) in *.
        set (m1 := Memory (cells m) (<[a := Box 0 false]> (boxes m)) a).
        set (m2 := Memory (create_new_cluster sim a (cells m) []).2 (<[a := Box 1 false]> (boxes m)) a).
        assert (H2 : rtc step (m, Thread Next (p :: td) (pair_of <$> cs))
                       (m2, Thread Next td (pair_of <$> (cs ++ [(create_new_cluster sim a (cells m) []).1])))).
        { eapply rtc_transitive; [exact H1|].
          eapply rtc_l. { unfold step. cbn. rewrite Eb. done. }
          eapply rtc_l. { unfold step. reflexivity. }
          fold a. fold m1.
          eapply rtc_r. { apply attempt_run; cbn.
            - by rewrite lookup_insert.
            - intros x Hx. unfold sim in Hx. apply elem_of_list_In, filter_In in Hx as [_ Hx].
              by destruct (cells m !! x).
            - unfold sim. rewrite (bool_filter _ (fun x => cells m !! x = None)).
              + by apply NoDup_filter.
              + intros x. by destruct (cells m !! x). }
          unfold step. cbn. unfold commit, set_state_from_new, deref. cbn. rewrite lookup_insert. cbn.
          unfold set_box, m2. cbn. rewrite insert_insert, fmap_app.
          rewrite (proj1 (create_new_cluster_spec sim a (cells m) [])). done. }
        destruct (IH m2 _ Hq' Hg) as (m' & new & Hr & Hc & Hcs & Hs & Hb & Hid & Hold).
        exists m', (((create_new_cluster sim a (cells m) []).1) :: new).
        rewrite (proj1 (create_new_cluster_spec sim a (cells m) [])) in *. cbn [app] in *.
        split; [by eapply rtc_transitive|]. split; [done|]. split; [by rewrite Hcs, <- app_assoc|].
        cbn [sequence m2] in *. split; [cbn [length]; rewrite Hs; lia|].
        split; [|split].
        -- intros c [->|Hin]%elem_of_cons; [|by apply Hb]. cbn [c_id].
           rewrite Hold by (cbn; lia). cbn. apply lookup_insert.
        -- intros c [->|Hin]%elem_of_cons; cbn [c_id]; [lia|]. specialize (Hid c Hin). lia.
        -- intros b Hbl. rewrite Hold by lia. cbn. rewrite lookup_insert_ne by lia. done.
      * destruct (IH m cs Hq' Hg) as (m' & new & Hr & Hrest). exists m', new. split; [|done].
        eapply rtc_transitive; [exact H1|]. eapply rtc_l; [|exact Hr]. unfold step. cbn. by rewrite Eb.
Qed.

Lemma rtc_schedule x y :
  rtc step x y -> exists n, run_schedule (System x.1 [x.2] false) (replicate n 0) = System y.1 [y.2] false.
Proof.
  induction 1 as [x|x y z Hxy Hyz [n IH]]; [by exists 0|]. exists (S n).
  change (run_schedule (System x.1 [x.2] false) (replicate (S n) 0))
    with (run_schedule (system_step (System x.1 [x.2] false) 0) (replicate n 0)).
  assert (E : system_step (System x.1 [x.2] false) 0 = System y.1 [y.2] false).
  { unfold ParallelClusterer.system_step. cbn. unfold step in Hxy. rewrite Hxy. by destruct y. }
  by rewrite E.
Qed.

Lemma done_stable m td cl n :
  run_schedule (System m [Thread Done td cl] false) (replicate n 0) = System m [Thread Done td cl] false.
Proof. induction n as [|n IH]; [done|]. cbn. exact IH. Qed.

Lemma run_schedule_app s l1 l2 : run_schedule s (l1 ++ l2) = run_schedule (run_schedule s l1) l2.
Proof. apply fold_left_app. Qed.

Lemma mapM_ok (l : list P) :
  (forall p, p ∈ l -> exists found, query p = Some found /\ NoDup found) -> is_Some (mapM query l).
Proof.
  intros Hl. apply mapM_is_Some, Forall_forall. intros p Hp. destruct (Hl p Hp) as (f & Hf & _). eauto.
Qed.

Lemma single_run m points :
  (forall p, p ∈ points -> exists found, query p = Some found /\ NoDup found) ->
  exists m' cs k,
    (forall n, k <= n -> run_schedule (cluster_start query m points) (replicate n 0)
                         = System m' [Thread Done [] (pair_of <$> cs)] false) /\
    linv query (fun n => min <=? n) points (sequence m) (cells m) (cells m') cs (sequence m') /\
    (forall c, c ∈ cs -> boxes m' !! c_id c = Some (Box 1 false)) /\
    (forall a, (a <= sequence m)%N -> boxes m' !! a = boxes m !! a) /\
    forall p, p ∈ points -> is_Some (cells m' !! p) \/
      exists found, query p = Some found /\
        (filter (fun x => cells m' !! x = None) found = [] \/
         length (filter (fun x => cells m' !! x = None) found) < min).
Proof.
  intros Hq. unfold cluster_start, cluster_slice_start.
  destruct (sort_by_most_number_of_similar_points query points) as [sorted|] eqn:Es.
  2: { unfold sort_by_most_number_of_similar_points in Es.
       destruct (mapM_ok points Hq) as [l Hl]. by rewrite Hl in Es. }
  pose proof (sort_perm _ _ _ Es) as Hperm.
  destruct (greedy_ok query (fun n => min <=? n) points sorted (sequence m) (cells m) (cells m) []
    (sequence m)) as (mc & cs & seq' & E & Hi & _ & Hmax).
  { intros n j Hn Hj. apply Nat.leb_gt in Hn. apply Nat.leb_gt. lia. }
  { intros p. by rewrite Hperm. }
  { intros p. rewrite Hperm. apply Hq. }
  { apply linv_start. }
  destruct (single_loop sorted m [] mc cs) as (m' & new & Hr & Hc & Hcs & Hs & Hb & _ & Hold);
    [intros p; rewrite Hperm; apply Hq|done|].
  cbn [app] in Hcs. subst new.
  destruct (rtc_schedule _ _ Hr) as [k Hk]. exists m', cs, k. split_and!.
  - intros n Hn. replace n with (k + (n - k)) by lia. rewrite replicate_add, run_schedule_app.
    cbn [fst snd] in Hk. change (@nil (N * list P)) with (pair_of <$> []). rewrite Hk. apply done_stable.
  - rewrite Hc, Hs, <- (l_seq _ _ _ _ _ _ _ _ Hi). done.
  - done.
  - done.
  - intros p Hp. rewrite Hc. destruct (Hmax p) as [?|(f & Hf & Hl)]; [by rewrite Hperm|by left|].
    right. exists f. split; [done|]. destruct Hl as [?|Hl]; [by left|right]. by apply Nat.leb_gt in Hl.
Qed.

(** ** A bound on the number of steps *)
(** An attempt with [n] points of which [k] are still to be visited. *)
Definition attempt_bound (n k : nat) : nat := k * (n + 10) + n + 5.
Definition visit_bound (p : P) : nat :=
  let n := match query p with Some found => length found | None => 0 end in attempt_bound n n + n + 4.
Definition todo_bound (l : list P) : nat := foldr (fun p n => visit_bound p + n) 2 l.
Definition pc_bound (x : pc P) : nat :=
  match x with
  | Done | Panicked | Next => 0
  | Filter qs acc => attempt_bound (length qs + length acc) (length qs + length acc) + length qs + 3
  | Alloc pts => attempt_bound (length pts) (length pts) + 1
  | Check _ own rest _ => attempt_bound (length own + length rest) (length rest)
  | Undo _ own pending (Some (rest, _)) =>
      attempt_bound (length own + length rest) (length rest - 1) + length pending + 7
  | Undo _ own pending None => length pending + 1
  | Assign _ own rest _ => attempt_bound (length own + length rest) (length rest - 1) + 6
  | Conflict1 _ own _ rest _ _ => attempt_bound (S (length own + length rest)) (length rest) + 5
  | Conflict2 _ own _ rest _ _ => attempt_bound (S (length own + length rest)) (length rest) + 4
  | Conflict3 _ own _ rest _ _ => attempt_bound (S (length own + length rest)) (length rest) + 3
  | Conflict4 _ own _ rest _ _ => attempt_bound (S (length own + length rest)) (length rest) + 2
  | Fail _ own => length own + 2
  | Commit _ own => length own + 3
  end.
Definition stopped (x : pc P) : bool := match x with Done | Panicked => true | _ => false end.
Definition thread_bound t : nat := if stopped (at_pc t) then 0 else pc_bound (at_pc t) + todo_bound (todo t).

Lemma bound_pos l : 2 <= todo_bound l.
Proof. unfold todo_bound. induction l as [|p l IH]; cbn [foldr]; lia. Qed.

Lemma step_bound m t m' t' :
  thread_step m t = Some (m', t') -> thread_bound t' <= pred (thread_bound t).
Proof.
  destruct t as [x td cl]. unfold ParallelClusterer.thread_step. cbn [at_pc todo clusters].
  pose proof (bound_pos td) as Hpos. unfold thread_bound.
  destruct x as [|qs acc|pts|a own rest i|a own pending k|a own rest i|a own p rest i c
    |a own p rest i c|a own p rest i c|a own p rest i c|a own|a own| |]; cbn [at_pc todo stopped].
  - destruct td as [|p td]; [intros [= <- <-]; cbn; lia|].
    pose proof (bound_pos td) as Hpos'.
    destruct (cells m !! p); [|destruct (query p) eqn:Eq]; intros [= <- <-]; cbn [at_pc todo stopped pc_bound todo_bound foldr];
      unfold visit_bound; fold (todo_bound td); try rewrite Eq; cbn [length]; rewrite ?Nat.add_0_r; lia.
  - destruct qs as [|q qs].
    + destruct (min <=? length acc); intros [= <- <-]; cbn [at_pc todo stopped pc_bound length Nat.add]; lia.
    + destruct (cells m !! q); intros [= <- <-]; cbn [at_pc todo stopped pc_bound length];
        rewrite ?app_length; cbn [length]; unfold attempt_bound; nia.
  - intros [= <- <-]. cbn [at_pc todo stopped pc_bound length Nat.add]. lia.
  - destruct rest as [|p rest].
    + intros [= <- <-]. cbn [at_pc todo stopped pc_bound length Nat.add]. unfold attempt_bound. lia.
    + destruct (is_rolled_back m a) as [[]|]; [| |done]; intros [= <- <-];
        cbn [at_pc todo stopped pc_bound length Nat.add]; unfold attempt_bound; cbn [Nat.sub]; nia.
  - destruct pending as [|p pending].
    + destruct k as [[rest i]|]; intros [= <- <-]; cbn [at_pc todo stopped pc_bound length]; lia.
    + intros [= <- <-]. cbn [at_pc todo stopped pc_bound]. destruct k as [[rest i]|]; cbn [length]; lia.
  - destruct rest as [|p rest].
    + intros [= <- <-]. cbn [at_pc todo stopped pc_bound length]. unfold attempt_bound. cbn. lia.
    + destruct (assign_cluster p a m); intros [= <- <-]; cbn [at_pc todo stopped pc_bound length];
        rewrite ?app_length; cbn [length]; unfold attempt_bound; rewrite ?Nat.sub_0_r;
        replace (S (length rest) - 1) with (length rest) by lia; nia.
  - destruct (is_commited m c) as [[]|]; [| |done]; intros [= <- <-];
      cbn [at_pc todo stopped pc_bound length]; unfold attempt_bound; nia.
  - destruct (is_rolled_back m c) as [[]|]; [destruct (checks && (i =? 0))%bool| |done]; intros [= <- <-];
      cbn [at_pc todo stopped pc_bound length]; unfold attempt_bound; nia.
  - destruct (deref m c); [|done]. cbn. destruct (c <? a)%N; intros [= <- <-];
      cbn [at_pc todo stopped pc_bound length]; unfold attempt_bound; nia.
  - destruct (rollback c m) as [[m1 []]|]; [| |done]; intros [= <- <-];
      cbn [at_pc todo stopped pc_bound length]; rewrite ?app_length; cbn [length]; unfold attempt_bound; nia.
  - destruct (rollback a m) as [[m1 ok]|]; [|done]; intros [= <- <-];
      cbn [at_pc todo stopped pc_bound length]; lia.
  - destruct (commit a m) as [[m1 []]|]; [| |done]; intros [= <- <-];
      cbn [at_pc todo stopped pc_bound length]; lia.
  - intros [= <- <-]. done.
  - intros [= <- <-]. done.
Qed.

Lemma run_bound s sched i t :
  threads s !! i = Some t -> undefined (run_schedule s sched) = false ->
  exists t', threads (run_schedule s sched) !! i = Some t' /\
    thread_bound t' <= thread_bound t - length (filter (fun j => j = i) sched).
Proof.
  revert s t. induction sched as [|j sched IH]; intros s t Ht Hu.
  - exists t. split; [done|]. cbn. lia.
  - change (run_schedule s (j :: sched)) with (run_schedule (system_step s j) sched) in *.
    destruct (undefined s) eqn:Eu.
    { exfalso. rewrite undefined_stable in Hu by done.
      assert (Hst : forall l s', undefined s' = true -> undefined (run_schedule s' l) = true).
      { induction l as [|k l IHl]; intros s' Hs'; [done|]. cbn. rewrite undefined_stable by done. by apply IHl. }
      rewrite Hst in Hu; done. }
    rewrite filter_cons. destruct (decide (j = i)) as [->|Hne].
    + destruct (thread_step (mem s) t) as [[m' t']|] eqn:Est.
      * assert (Es : system_step s i = System m' (<[i := t']> (threads s)) false).
        { unfold ParallelClusterer.system_step. by rewrite Eu, Ht, Est. }
        rewrite Es in *. destruct (IH (System m' (<[i := t']> (threads s)) false) t') as (t'' & H1 & H2).
        { cbn. apply list_lookup_insert. by eapply lookup_lt_Some. }
        { done. }
        exists t''. split; [done|]. apply step_bound in Est. cbn [length]. lia.
      * exfalso. assert (Es : undefined (system_step s i) = true).
        { unfold ParallelClusterer.system_step. by rewrite Eu, Ht, Est. }
        assert (Hst : forall l s', undefined s' = true -> undefined (run_schedule s' l) = true).
        { induction l as [|k l IHl]; intros s' Hs'; [done|]. cbn. rewrite undefined_stable by done. by apply IHl. }
        rewrite Hst in Hu; done.
    + apply IH; [|done]. unfold ParallelClusterer.system_step. rewrite Eu.
      destruct (threads s !! j) as [u|]; [|done].
      destruct (thread_step (mem s) u) as [[m' u']|]; [|done]. cbn. by rewrite list_lookup_insert_ne.
Qed.

Lemma start_bound (ch : list P) :
  let visit p := let n := match query p with Some found => length found | None => 0 end in
                 n * (n + 10) + 2 * n + 9 in
  thread_bound (cluster_slice_start query ch) <= 2 + sum_list (visit <$> ch).
Proof.
  intros visit. unfold cluster_slice_start.
  destruct (sort_by_most_number_of_similar_points query ch) as [l|] eqn:E.
  - unfold thread_bound. cbn [at_pc stopped pc_bound todo Nat.add].
    rewrite <- (sort_perm _ _ _ E). clear. unfold todo_bound. induction l as [|p l IH]; [done|].
    rewrite fmap_cons. cbn [foldr sum_list].
    assert (Hv : visit_bound p = visit p) by (unfold visit_bound, attempt_bound, visit; lia).
    rewrite Hv. etrans; [apply Nat.add_le_mono_l, IH|]. rewrite !Nat.add_succ_r. reflexivity.
  - cbn. lia.
Qed.

Lemma wait_free (m0 : memory) (chunks : list (list P)) (schedule : list nat) (i : nat) (ch : list P) :
  let visit p := let n := match query p with Some found => length found | None => 0 end in
                 n * (n + 10) + 2 * n + 9 in
  let s := run_schedule (System m0 (cluster_slice_start query <$> chunks) false) schedule in
  chunks !! i = Some ch ->
  2 + sum_list (visit <$> ch) <= length (filter (fun j => j = i) schedule) ->
  undefined s = true \/
  exists t, threads s !! i = Some t /\ (at_pc t = Done \/ at_pc t = Panicked).
Proof.
  intros visit s Hch Hlen. destruct (undefined s) eqn:Eu; [by left|right].
  destruct (run_bound (System m0 (cluster_slice_start query <$> chunks) false) schedule i
    (cluster_slice_start query ch)) as (t & Ht & Hb); [|done|].
  { cbn. by rewrite list_lookup_fmap, Hch. }
  exists t. split; [done|].
  pose proof (start_bound ch) as Hs. cbn zeta in Hs. unfold visit in *.
  unfold thread_bound at 1 in Hb. destruct (at_pc t) eqn:Et; cbn [stopped] in Hb; auto;
    pose proof (bound_pos (todo t)); lia.
Qed.
End Single.

(** ** Sorting *)
Section Sort.
Context {P : Type}.

Lemma insert_sorted_sorted count (x : P) l :
  StronglySorted (fun p q => count q <= count p) l ->
  StronglySorted (fun p q => count q <= count p) (insert_sorted count x l).
Proof.
  induction 1 as [|y l Hs IH Hy]; cbn; [repeat constructor|].
  destruct (Nat.leb_spec (count y) (count x)).
  - constructor; [by constructor|]. constructor; [done|].
    eapply Forall_impl; [exact Hy|]. cbn. lia.
  - constructor; [done|]. rewrite insert_sorted_perm. constructor; [lia|done].
Qed.

Lemma insert_sorted_filter count (x : P) l n :
  StronglySorted (fun p q => count q <= count p) l ->
  filter (fun p => count p = n) (insert_sorted count x l) = filter (fun p => count p = n) (x :: l).
Proof.
  induction 1 as [|y l Hs IH Hy]; [done|]. cbn [insert_sorted].
  destruct (Nat.leb_spec (count y) (count x)); [done|].
  rewrite filter_cons, IH, !filter_cons.
  destruct (decide (count y = n)), (decide (count x = n)); try done. lia.
Qed.

Lemma StronglySorted_lookup (R : P -> P -> Prop) (l : list P) i j p q :
  StronglySorted R l -> i < j -> l !! i = Some p -> l !! j = Some q -> R p q.
Proof.
  intros Hs. revert i j. induction Hs as [|x l Hs IH Hx]; intros i j Hij Hi Hj; [done|].
  destruct j as [|j]; [lia|]. destruct i as [|i]; cbn in *.
  - injection Hi as <-. rewrite Forall_lookup in Hx. eauto.
  - apply (IH i j); [lia|done|done].
Qed.

Context (query : P -> res (list P)).
Lemma sort_spec points :
  (forall p, p ∈ points -> is_Some (query p)) ->
  exists sorted, sort_by_most_number_of_similar_points query points = Some sorted /\
    sorted ≡ₚ points /\
    (forall i j p q f g, i < j -> sorted !! i = Some p -> sorted !! j = Some q ->
      query p = Some f -> query q = Some g -> length g <= length f) /\
    (forall n, filter (fun p => (length <$> query p) = Some n) sorted
               = filter (fun p => (length <$> query p) = Some n) points).
Proof.
  intros Hq. destruct (sort_by_most_number_of_similar_points query points) as [sorted|] eqn:E.
  2: { unfold sort_by_most_number_of_similar_points in E.
       assert (is_Some (mapM query points)) as [l Hl].
       { apply mapM_is_Some, Forall_forall, Hq. }
       by rewrite Hl in E. }
  exists sorted. split; [done|]. pose proof (sort_perm _ _ _ E) as Hp. split; [done|].
  unfold sort_by_most_number_of_similar_points in E. destruct (mapM query points); [|done].
  cbn in E. injection E as E.
  assert (Hs : StronglySorted (fun p q => count_of query q <= count_of query p) sorted).
  { rewrite <- E. clear. induction points as [|p ps IH]; [constructor|]. cbn. by apply insert_sorted_sorted. }
  split.
  - intros i j p q f g Hij Hi Hj Hf Hg.
    pose proof (StronglySorted_lookup _ _ _ _ _ _ Hs Hij Hi Hj) as Hc.
    unfold count_of in Hc. by rewrite Hf, Hg in Hc.
  - intros n.
    assert (Hn : filter (fun p => count_of query p = n) sorted = filter (fun p => count_of query p = n) points).
    { rewrite <- E. clear. induction points as [|p ps IH]; [done|]. cbn [foldr].
      rewrite insert_sorted_filter.
      - rewrite !filter_cons. by rewrite IH.
      - clear. induction ps as [|q ps IH]; [constructor|]. cbn. by apply insert_sorted_sorted. }
    assert (Hin : forall ps : list P, (forall p, p ∈ ps -> is_Some (query p)) ->
      filter (fun p => (length <$> query p) = Some n) ps = filter (fun p => count_of query p = n) ps).
    { intros ps Hl. apply filter_iff_in. intros p Hpl. destruct (Hl p Hpl) as [f Hf].
      unfold count_of. rewrite Hf. cbn. split; congruence. }
    rewrite (Hin sorted), (Hin points); [done|done|]. intros p. rewrite Hp. apply Hq.
Qed.
End Sort.

(** ** Chunks *)
Section Chunks.
Context {P : Type}.

Lemma chunks_fuel_spec fuel size (points : list P) :
  0 < size -> length points <= fuel ->
  let cs := chunks_fuel fuel size points in
  concat cs = points /\ length points <= length cs * size < length points + size /\
  forall i ch, cs !! i = Some ch -> 0 < length ch /\ (S i < length cs -> length ch = size).
Proof.
  intros Hs. revert points. induction fuel as [|fuel IH]; intros points Hl; cbn zeta.
  - destruct points; cbn in *; [|lia]. split_and!; [done|lia|lia|done].
  - destruct points as [|p points]; [cbn; split_and!; [done|lia|lia|done]|].
    cbn [chunks_fuel]. destruct (IH (drop size (p :: points))) as (H1 & H2 & H3).
    { rewrite drop_length. cbn [length] in *. lia. }
    set (cs := chunks_fuel fuel size (drop size (p :: points))) in *.
    assert (Hd : length (drop size (p :: points)) = length (p :: points) - size) by apply drop_length.
    assert (H0 : 0 < length (p :: points)) by (cbn; lia).
    assert (Hc : length cs * size < length (p :: points)).
    { destruct (Nat.le_gt_cases size (length (p :: points))); [lia|].
      destruct (length cs) as [|k]; [lia|]. rewrite Nat.mul_succ_l in H2. lia. }
    split_and!.
    + cbn [concat]. rewrite H1. apply take_drop.
    + change (length (take size (p :: points) :: cs)) with (S (length cs)). rewrite Nat.mul_succ_l. lia.
    + change (length (take size (p :: points) :: cs)) with (S (length cs)). rewrite Nat.mul_succ_l. lia.
    + intros [|i] ch Hi.
      * cbn in Hi. injection Hi as <-.
        change (match size with 0 => [] | S n => p :: take n points end) with (take size (p :: points)).
        rewrite take_length. split; [lia|]. intros Hlt. cbn [length] in Hlt.
        destruct (length cs) as [|k]; [lia|]. rewrite Nat.mul_succ_l in Hc. cbn [length] in *. lia.
      * cbn [lookup list_lookup] in Hi. destruct (H3 i ch Hi) as [Ha Hb]. split; [done|].
        cbn [length]. intros Hlt. apply Hb. lia.
Qed.

Lemma chunks_panic n (points : list P) :
  cluster_par_chunks n points = None <-> n = 0 \/ length points < n.
Proof.
  unfold cluster_par_chunks. destruct (Nat.eqb_spec n 0) as [->|Hn]; [naive_solver|].
  unfold par_chunks. destruct (Nat.eqb_spec (length points / n) 0) as [E|E].
  - apply Nat.div_small_iff in E; [|done]. naive_solver.
  - split; [done|]. intros [?|Hlt]; [done|]. by rewrite Nat.div_small in E.
Qed.

Lemma chunks_spec n (points : list P) chunks :
  cluster_par_chunks n points = Some chunks ->
  concat chunks = points /\
  n <= length chunks < 2 * n /\
  forall i ch, chunks !! i = Some ch ->
    0 < length ch /\ (S i < length chunks -> length ch = length points / n).
Proof.
  unfold cluster_par_chunks. destruct (Nat.eqb_spec n 0) as [->|Hn]; [done|].
  unfold par_chunks. destruct (Nat.eqb_spec (length points / n) 0) as [E|E]; [done|].
  intros [= <-]. destruct (chunks_fuel_spec (length points) (length points / n) points) as (H1 & H2 & H3); [lia|lia|].
  split; [done|]. split; [|done].
  pose proof (Nat.div_mod (length points) n Hn) as Hd. pose proof (Nat.mod_upper_bound (length points) n Hn) as Hm.
  set (s := length points / n) in *. set (k := length (chunks_fuel (length points) s points)) in *.
  set (r := length points mod n) in *.
  assert (Hle : n * s <= k * s) by lia. assert (Hlt : k * s < n * s + n + s) by lia.
  split; [by apply Nat.mul_le_mono_pos_r in Hle; [|lia]|].
  destruct (Nat.le_gt_cases (2 * n) k) as [Hge|]; [|done]. exfalso.
  assert (2 * n * s <= k * s) by (by apply Nat.mul_le_mono_r). 
  assert (Hr : k * s < n * s + r + s) by lia. nia.
Qed.
End Chunks.
