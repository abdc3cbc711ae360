(** What holds for all executions of the parallel clusterer under relaxed memory. *)
From stdpp Require Import base list gmap.
From Coq Require Import NArith.
From Verif Require Import ListFacts Base ParallelClusterer SpecParallel ParallelClustererFacts
  ParallelClustererSingle WeakClusterer.
Local Open Scope nat_scope.

Section Weak.
Context {P : Type} `{Countable P}.
Context (query : P -> res (list P)) (min : nat) (checks : bool).
Notation memory := (memory P).
Notation thread := (thread P).
Notation system := (system (P := P)).
Notation weak := (weak P).
Notation weak_thread_step := (weak_thread_step query min checks).
Notation weak_step := (weak_step query min checks).
Notation weak_run := (weak_run query min checks).
Notation weak_trace := (weak_trace query min checks).
Notation thread_step := (thread_step query min checks).
Notation thread_ok := (thread_ok query).
Notation pc_ok := (pc_ok query).
Notation inv := (inv query).
Implicit Types (m : memory) (t : thread) (s : system) (w : weak) (a c : N) (p : P).

(** ** Old values *)
Lemma old_value_looks w i t j p v : old_value w i t j = Some (p, v) -> looks_at t = Some p /\
  view w i p <= j /\ earlier w p !! j = Some v /\ (exchanges t = true -> is_Some v).
Proof.
  unfold old_value. destruct (looks_at t) as [q|]; [|done]. cbn.
  destruct (view w i q <=? j) eqn:Ev; [|done]. apply Nat.leb_le in Ev.
  destruct (earlier w q !! j) as [u|] eqn:Ee; [|done]. cbn.
  destruct (exchanges t); cbn.
  - case_bool_decide; cbn; intros [= <- <-]; auto.
  - intros [= <- <-]. split_and!; [done|done|done|discriminate].
Qed.
Lemma looks_old_state t j p : looks_at t = Some p -> old_state t j = None.
Proof. unfold looks_at, old_state. destruct (j =? 0); [|done]. by destruct (at_pc t). Qed.

(** The three kinds of steps: the newest values; an old state; an old pointer. *)
Lemma weak_thread_cases w i t j m' t' : weak_thread_step w i t j = Some (m', t') ->
  let m := mem (w_sys w) in
  (old_value w i t j = None /\ thread_step m t = Some (m', t')) \/
  (old_value w i t j = None /\ exists c b m1, old_state t j = Some c /\ boxes m !! c = Some b /\ m' = m /\
     thread_step (set_box c (Box 0 (freed b)) m) t = Some (m1, t')) \/
  (exists p v m1, old_value w i t j = Some (p, v) /\
     thread_step (set_cells (partial_alter (fun _ => v) p (cells m)) m) t = Some (m1, t') /\
     m' = Memory (cells m) (boxes m1) (sequence m1)).
Proof.
  unfold WeakClusterer.weak_thread_step, seen. cbn zeta.
  destruct (old_value w i t j) as [[p v]|] eqn:Eo; cbn.
  - destruct (thread_step _ _) as [[m1 t1]|] eqn:Es; [|done]. cbn. intros [= <- <-]. right. right. exists p, v, m1. auto.
  - destruct (old_state t j) as [c|] eqn:Ec.
    + destruct (boxes (mem (w_sys w)) !! c) as [b|] eqn:Eb.
      * destruct (thread_step _ _) as [[m1 t1]|] eqn:Es; [|done]. cbn. intros [= <- <-]. right. left. split; [done|]. exists c, b, m1. auto.
      * destruct (thread_step _ _) as [[m1 t1]|] eqn:Es; [|done]. cbn. intros [= <- <-]. exfalso.
        unfold old_state in Ec. destruct (j =? 0); [|done]. unfold ParallelClusterer.thread_step in Es.
        destruct (at_pc t) as [|qs acc|pts|a own [|p rest] k|a own pending k|a own rest k|a own p rest k c'
          |a own p rest k c'|a own p rest k c'|a own p rest k c'|a own|a own| |]; try done;
          injection Ec as ->; unfold is_rolled_back, is_commited, deref in Es; by rewrite Eb in Es.
    + destruct (thread_step _ _) as [[m1 t1]|] eqn:Es; [|done]. cbn. intros [= <- <-]. left. auto.
Qed.

(** ** The invariant of C47 *)
Lemma weak_local_ok w i t j m' t' ch :
  weak_thread_step w i t j = Some (m', t') -> thread_ok (mem (w_sys w)) ch t ->
  NoDup (ids t) -> (forall a, a ∈ ids t -> (a <= sequence (mem (w_sys w)))%N) ->
  local_step (mem (w_sys w)) t m' t' /\ thread_ok m' ch t'.
Proof.
  intros Hst Hok Hnd Hle. destruct (weak_thread_cases _ _ _ _ _ _ Hst) as [[_ Hs]|[(_ & c & b & m1 & Hc & Hb & -> & Hs)|(p & v & m1 & Ho & Hs & ->)]];
    [by eapply local_ok| |]; set (m := mem (w_sys w)) in *; pose proof (t_pc _ _ _ _ Hok) as Hpc;
    destruct t as [x td cl]; cbn [at_pc] in Hpc.
  - unfold old_state in Hc. destruct (j =? 0); [|done]. cbn [at_pc] in Hc. unfold ParallelClusterer.thread_step in Hs. cbn [at_pc todo clusters] in Hs.
    assert (Hd : forall b2, deref (set_box c (Box 0 (freed b)) m) c = Some b2 -> b2 = Box 0 false).
    { unfold deref, set_box. cbn. rewrite lookup_insert. destruct (freed b) eqn:Ef; cbn; [done|]. congruence. }
    destruct x as [|qs acc|pts|a own [|p rest] k|a own pending k|a own rest k|a own p rest k c'
      |a own p rest k c'|a own p rest k c'|a own p rest k c'|a own|a own| |]; try done; injection Hc as ->.
    + unfold is_rolled_back in Hs. destruct (deref _ c) as [b'|] eqn:Ed; [|done]. rewrite (Hd _ eq_refl) in Hs. cbn in Hs. injection Hs as _ <-.
      apply (pos_step query ch m m (Thread (Check c own (p :: rest) k) td cl)); auto using box_le_refl; done.
    + unfold is_commited in Hs. destruct (deref _ c) as [b'|] eqn:Ed; [|done]. rewrite (Hd _ eq_refl) in Hs. cbn in Hs. injection Hs as _ <-.
      apply (pos_step query ch m m (Thread (Conflict1 a own p rest k c) td cl)); auto using box_le_refl; done.
    + unfold is_rolled_back in Hs. destruct (deref _ c) as [b'|] eqn:Ed; [|done]. rewrite (Hd _ eq_refl) in Hs. cbn in Hs. injection Hs as _ <-.
      apply (pos_step query ch m m (Thread (Conflict2 a own p rest k c) td cl)); auto using box_le_refl; done.
  - apply old_value_looks in Ho as (Hl & _ & _ & Hx). unfold looks_at in Hl. cbn [at_pc todo] in Hl.
    unfold ParallelClusterer.thread_step in Hs. cbn [at_pc todo clusters] in Hs.
    assert (Hcell : cells (set_cells (partial_alter (fun _ => v) p (cells m)) m) !! p = v).
    { cbn. by rewrite lookup_partial_alter. }
    assert (Hm : Memory (cells m) (boxes m) (sequence m) = m) by by destruct m.
    destruct x as [|qs acc|pts|a own rest k|a own pending k|a own rest k|a own q rest k c'
      |a own q rest k c'|a own q rest k c'|a own q rest k c'|a own|a own| |]; try done.
    + destruct td as [|q td]; [done|]. injection Hl as ->. rewrite Hcell in Hs.
      destruct v as [c|]; [|destruct (query p) as [found|] eqn:Eq]; injection Hs as <- <-; cbn [boxes sequence set_cells]; rewrite ?Hm.
      * split.
        -- split; [left; done|auto using box_le_refl| |done|done]. intros q a Hq. left. auto.
        -- destruct Hok as [T1 T2 T3 T4]. split; try done. cbn in *. set_solver.
      * split.
        -- split; [left; done|auto using box_le_refl| |done|done]. intros q a Hq. left. auto.
        -- destruct Hok as [T1 T2 T3 T4]. split; try done; cbn in *; [set_solver|]. exists p, found. set_solver.
      * assert (E : Memory (cells m) (boxes (foldr (fun (x : N * list P) => drop_box x.1) (set_cells (partial_alter (fun _ => None) p (cells m)) m) cl))
            (sequence (foldr (fun (x : N * list P) => drop_box x.1) (set_cells (partial_alter (fun _ => None) p (cells m)) m) cl))
          = foldr (fun (x : N * list P) => drop_box x.1) m cl).
        { clear. induction cl as [|[a own] cl IH]; cbn; [by destruct m|].
          rewrite <- IH. unfold drop_box at 1 3 5. cbn [boxes]. destruct (boxes (foldr _ _ cl) !! a); done. }
        rewrite E. by apply (unwind_ok query ch m m (Thread Next (p :: td) cl)).
    + destruct qs as [|q qs]; [done|]. injection Hl as ->. rewrite Hcell in Hs.
      destruct v as [c|]; injection Hs as <- <-; cbn [boxes sequence set_cells]; rewrite Hm.
      * apply (pos_step query ch m m (Thread (Filter (p :: qs) acc) td cl)); auto using box_le_refl; try done.
        cbn. by eapply from_seed_skip.
      * apply (pos_step query ch m m (Thread (Filter (p :: qs) acc) td cl)); auto using box_le_refl; try done.
        cbn. by apply from_seed_snoc.
    + destruct rest as [|q rest]; [done|]. injection Hl as ->. destruct (Hx eq_refl) as [c ->].
      unfold assign_cluster in Hs. rewrite Hcell in Hs. injection Hs as <- <-. cbn [boxes sequence set_cells]. rewrite Hm.
      apply (pos_step query ch m m (Thread (Assign a own (p :: rest) k) td cl)); auto using box_le_refl; done.
Qed.

(** A step as a step of one thread. *)
Lemma weak_step_sys w i j : w_sys (weak_step w (i, j)) =
  if undefined (w_sys w) then w_sys w else
  match threads (w_sys w) !! i with
  | None => w_sys w
  | Some t => match weak_thread_step w i t j with
              | None => System (mem (w_sys w)) (threads (w_sys w)) true
              | Some (m', t') => System m' (<[i := t']> (threads (w_sys w))) false
              end
  end.
Proof.
  unfold WeakClusterer.weak_step. destruct (undefined (w_sys w)); [done|]. destruct (threads (w_sys w) !! i) as [t|]; [|done].
  destruct (weak_thread_step w i t j) as [[m' t']|]; [|done].
  destruct (changed _ _ _); [done|]. by destruct (looks_at t).
Qed.
Lemma weak_undefined w l : undefined (w_sys w) = true -> weak_run w l = w.
Proof.
  intros Hu. unfold WeakClusterer.weak_run. induction l as [|[i j] l IH]; [done|]. cbn [fold_left].
  replace (weak_step w (i, j)) with w; [done|]. unfold WeakClusterer.weak_step. by rewrite Hu.
Qed.
Lemma weak_run_app w l1 l2 : weak_run w (l1 ++ l2) = weak_run (weak_run w l1) l2.
Proof. unfold WeakClusterer.weak_run. by rewrite fold_left_app. Qed.

Lemma weak_step_inv m0 chunks w x : good_start m0 -> inv m0 chunks (w_sys w) ->
  undefined (w_sys (weak_step w x)) = false -> inv m0 chunks (w_sys (weak_step w x)).
Proof.
  intros Hg HI. destruct x as [i j]. rewrite weak_step_sys. destruct (undefined (w_sys w)) eqn:Eu; [congruence|].
  destruct (threads (w_sys w) !! i) as [t|] eqn:Et; [|done].
  destruct (weak_thread_step w i t j) as [[m' t']|] eqn:Est; [|done]. intros _.
  destruct (lookup_lt_is_Some_2 chunks i) as [ch Hch].
  { rewrite <- (i_len _ _ _ _ HI). by eapply lookup_lt_Some. }
  destruct (i_ids _ _ _ _ HI i t Et) as [Hnd Hr].
  destruct (weak_local_ok w i t j m' t' ch Est (i_thread _ _ _ _ HI i t ch Et Hch) Hnd) as [L1 L2].
  { intros a Ha. specialize (Hr a Ha). lia. }
  by apply (inv_step query m0 chunks (w_sys w) i t ch m' t').
Qed.
Lemma weak_run_inv m0 chunks w l : good_start m0 -> inv m0 chunks (w_sys w) ->
  undefined (w_sys (weak_run w l)) = false -> inv m0 chunks (w_sys (weak_run w l)).
Proof.
  intros Hg. revert w. induction l as [|x l IH]; intros w HI Hu; [done|].
  change (weak_run w (x :: l)) with (weak_run (weak_step w x) l) in *.
  destruct (undefined (w_sys (weak_step w x))) eqn:E.
  - rewrite weak_undefined in Hu by done. congruence.
  - apply IH; [|done]. by apply weak_step_inv.
Qed.

(** ** Interleavings are executions *)
Lemma weak_newest w i t j : old_value w i t j = None -> old_state t j = None ->
  weak_thread_step w i t j = thread_step (mem (w_sys w)) t.
Proof.
  intros Ho Hs. unfold WeakClusterer.weak_thread_step, seen. rewrite Ho, Hs. by destruct (thread_step _ _) as [[]|].
Qed.
Lemma weak_step_newest w i : exists j,
  w_sys (weak_step w (i, j)) = system_step query min checks (w_sys w) i.
Proof.
  destruct (threads (w_sys w) !! i) as [t|] eqn:Et.
  - exists (S (match looks_at t with Some p => length (earlier w p) | None => 0 end)).
    rewrite weak_step_sys. unfold system_step. destruct (undefined (w_sys w)); [done|]. rewrite Et.
    rewrite weak_newest; [by destruct (thread_step _ _) as [[]|]| |done].
    unfold old_value. destruct (looks_at t) as [p|]; [|done]. cbn.
    destruct (view w i p <=? _); [|done]. by rewrite lookup_ge_None_2 by lia.
  - exists 0. rewrite weak_step_sys. unfold system_step. destruct (undefined (w_sys w)); [done|]. by rewrite Et.
Qed.
Lemma weak_run_newest w schedule : exists l, l.*1 = schedule /\
  w_sys (weak_run w l) = run_schedule query min checks (w_sys w) schedule.
Proof.
  revert w. induction schedule as [|i schedule IH]; intros w; [by exists []|].
  destruct (weak_step_newest w i) as [j Hj]. destruct (IH (weak_step w (i, j))) as (l & <- & Hl).
  exists ((i, j) :: l). split; [done|]. change (weak_run w ((i, j) :: l)) with (weak_run (weak_step w (i, j)) l).
  rewrite Hl, Hj. done.
Qed.

(** ** Coherence: no thread reads a value older than one it has read or written *)
Definition views_ok w : Prop := length (views w) = length (threads (w_sys w)) /\ forall i p, view w i p <= length (earlier w p).

Lemma view_set w s' past' i p n k q : i < length (views w) ->
  view (Weak s' past' (set_view i p n (views w))) k q = if decide (k = i /\ q = p) then n else view w k q.
Proof.
  intros Hi. unfold view, set_view. cbn [views]. destruct (decide (k = i)) as [->|Hk].
  - rewrite list_lookup_alter. destruct (lookup_lt_is_Some_2 _ _ Hi) as [v Hv]. rewrite Hv. cbn [fmap option_fmap option_map default].
    destruct (decide (q = p)) as [->|Hq].
    + rewrite decide_True by done. cbn. by rewrite lookup_insert.
    + rewrite decide_False by naive_solver. cbn. by rewrite lookup_insert_ne.
  - rewrite list_lookup_alter_ne by done. by rewrite decide_False by naive_solver.
Qed.
Lemma weak_coherent w x : views_ok w -> views_ok (weak_step w x) /\
  forall i p, view w i p <= view (weak_step w x) i p /\ earlier w p `prefix_of` earlier (weak_step w x) p.
Proof.
  intros [Hl Hv]. destruct x as [i j]. unfold WeakClusterer.weak_step.
  assert (Hsame : views_ok w /\ forall k p, view w k p <= view w k p /\ earlier w p `prefix_of` earlier w p) by done.
  destruct (undefined (w_sys w)); [done|]. destruct (threads (w_sys w) !! i) as [t|] eqn:Et; [|done].
  assert (Hi : i < length (views w)) by (rewrite Hl; by eapply lookup_lt_Some).
  destruct (weak_thread_step w i t j) as [[m' t']|] eqn:Es; [|done].
  destruct (changed (mem (w_sys w)) m' t) as [p|] eqn:Ec.
  - set (s' := System _ _ _). set (h := <[p := _]> (past w)).
    assert (He : forall q, earlier (Weak s' h (set_view i p (length (earlier w p) + 1) (views w))) q =
      if decide (q = p) then earlier w p ++ [cells (mem (w_sys w)) !! p] else earlier w q).
    { intros q. unfold earlier at 1. cbn [past]. unfold h. destruct (decide (q = p)) as [->|Hq].
      - by rewrite lookup_insert.
      - by rewrite lookup_insert_ne. }
    split; [split|].
    + cbn [views w_sys]. unfold set_view, s'. cbn [threads]. rewrite alter_length, insert_length. done.
    + intros k q. rewrite view_set, He by done. specialize (Hv k q).
      destruct (decide (q = p)) as [->|Hq]; rewrite ?app_length; cbn [length].
      * destruct (decide _); lia.
      * rewrite decide_False by naive_solver. done.
    + intros k q. rewrite view_set, He by done. specialize (Hv k q). split.
      * destruct (decide (k = i /\ q = p)) as [[-> ->]|]; lia.
      * destruct (decide (q = p)) as [->|]; [by apply prefix_app_r|done].
  - destruct (looks_at t) as [p|] eqn:El; [|split; [split; [cbn; by rewrite insert_length|done]|done]].
    assert (Hp : view w i p <= position w i t j p <= length (earlier w p)).
    { unfold position. destruct (old_value w i t j) as [[q v]|] eqn:Eo; [|by split].
      apply old_value_looks in Eo as (E & Hle & Hlt%lookup_lt_Some & _). rewrite El in E. injection E as <-. lia. }
    split; [split|].
    + cbn [views w_sys]. unfold set_view. cbn [threads]. rewrite alter_length, insert_length. done.
    + intros k q. rewrite view_set by done. specialize (Hv k q). destruct (decide _) as [[-> ->]|]; [|done]. apply Hp.
    + intros k q. rewrite view_set by done. split; [|done]. destruct (decide _) as [[-> ->]|]; [apply Hp|done].
Qed.
Lemma weak_run_views w l : views_ok w -> views_ok (weak_run w l).
Proof. revert w. induction l as [|x l IH]; intros w Hw; [done|]. apply IH. by apply weak_coherent. Qed.
Lemma weak_start_views s : views_ok (weak_start s).
Proof.
  split; [apply replicate_length|]. intros i p. unfold view. cbn [views weak_start].
  destruct (replicate _ _ !! i) as [v|] eqn:E; cbn [default]; [apply lookup_replicate in E as [-> _]|];
    cbn; rewrite lookup_empty; cbn; lia.
Qed.
Lemma weak_read w i t j p v : views_ok w -> threads (w_sys w) !! i = Some t -> old_value w i t j = Some (p, v) ->
  undefined (w_sys (weak_step w (i, j))) = false -> view (weak_step w (i, j)) i p = j.
Proof.
  intros [Hl _] Et Eo. assert (Hi : i < length (views w)) by (rewrite Hl; by eapply lookup_lt_Some).
  unfold WeakClusterer.weak_step. destruct (undefined (w_sys w)) eqn:Eu; [cbn; congruence|]. rewrite Et.
  destruct (weak_thread_step w i t j) as [[m' t']|] eqn:Es; [|done]. intros _.
  apply weak_thread_cases in Es as [[E _]|[[E _]|(q & u & m1 & E & _ & ->)]]; [congruence..|].
  assert (Ec : changed (mem (w_sys w)) (Memory (cells (mem (w_sys w))) (boxes m1) (sequence m1)) t = None).
  { unfold changed. destruct (writes_cell t); [|done]. cbn. by rewrite decide_True. }
  rewrite Ec. apply old_value_looks in Eo as Hp. destruct Hp as [-> _]. rewrite view_set by done.
  rewrite decide_True by done. unfold position. by rewrite Eo.
Qed.
End Weak.
