(** Address reuse in the parallel clusterer (C89): as long as no remembered address is given out
    again, an execution is one of ParallelClusterer.v with renamed boxes. *)
From stdpp Require Import base list gmap infinite.
From Coq Require Import NArith Lia.
From Verif Require Import ListFacts Base ParallelClusterer HeapClusterer SpecHeap ParallelClustererFacts.
Local Open Scope nat_scope.

Section Facts.
Context {P : Type} `{Countable P}.
Context (query : P -> res (list P)) (min : nat) (checks : bool).
Notation heap := (heap P).
Notation memory := (memory P).
Notation thread := (thread P).
Implicit Types (m : heap) (M : memory) (t : thread) (f : N -> N) (rem : N -> Prop).

(** Boxes renamed from addresses to ids. *)
Definition ren_pc f (x : pc P) : pc P :=
  match x with
  | Check a own rest i => Check (f a) own rest i
  | Undo a own pending k => Undo (f a) own pending k
  | Assign a own rest i => Assign (f a) own rest i
  | Conflict1 a own p rest i c => Conflict1 (f a) own p rest i (f c)
  | Conflict2 a own p rest i c => Conflict2 (f a) own p rest i (f c)
  | Conflict3 a own p rest i c => Conflict3 (f a) own p rest i (f c)
  | Conflict4 a own p rest i c => Conflict4 (f a) own p rest i (f c)
  | Fail a own => Fail (f a) own
  | Commit a own => Commit (f a) own
  | y => y
  end.
Definition ren_cl f (c : N * list P) : N * list P := (f c.1, c.2).
Definition ren f t : thread := Thread (ren_pc f (at_pc t)) (todo t) (ren_cl f <$> clusters t).

Definition addresses t : list N := (clusters t).*1 ++ pc_addresses (at_pc t).

Lemma ren_ext f g t : (forall a, a ∈ addresses t -> g a = f a) -> ren g t = ren f t.
Proof.
  intros E. destruct t as [x td cl]. unfold ren, addresses in *. cbn in *. f_equal.
  - destruct x; cbn in *; rewrite ?E; try done; apply elem_of_app; right; set_solver.
  - apply list_fmap_ext. intros i [a own] Hi. unfold ren_cl. cbn. f_equal. apply E.
    apply elem_of_app. left. apply elem_of_list_fmap. exists (a, own). split; [done|].
    by eapply elem_of_list_lookup_2.
Qed.

(** A heap and a memory, with the boxes renamed by [f]; [rem] are the remembered addresses. *)
Record rel f rem m M : Prop := {
  r_cells : forall p, cells M !! p = f <$> h_cells m !! p;
  r_seq : sequence M = h_sequence m;
  r_live : forall x b, h_boxes m !! x = Some b ->
    boxes M !! f x = Some (Box (h_state b) false) /\ h_id b = f x;
  r_dead : forall x, rem x -> h_boxes m !! x = None -> exists st, boxes M !! f x = Some (Box st true);
  r_inj : forall x y, is_Some (h_boxes m !! x) \/ rem x -> is_Some (h_boxes m !! y) \/ rem y ->
    f x = f y -> x = y;
  r_le : forall x, is_Some (h_boxes m !! x) \/ rem x -> (f x <= h_sequence m)%N;
  r_rem : forall p x, h_cells m !! p = Some x -> rem x;
}.

Lemma deref_live f rem m M c b : rel f rem m M -> h_boxes m !! c = Some b ->
  deref M (f c) = Some (Box (h_state b) false).
Proof. intros R Hb. unfold deref. by rewrite (proj1 (r_live _ _ _ _ R _ _ Hb)). Qed.
Lemma deref_dead f rem m M c : rel f rem m M -> rem c -> h_boxes m !! c = None -> deref M (f c) = None.
Proof. intros R Hc Hb. unfold deref. by destruct (r_dead _ _ _ _ R _ Hc Hb) as [st ->]. Qed.

Lemma is_rolled_back_rel f rem m M c : rel f rem m M -> rem c ->
  is_rolled_back M (f c) = h_is ROLLED_BACK m c.
Proof.
  intros R Hc. unfold is_rolled_back, h_is. destruct (h_boxes m !! c) as [b|] eqn:E.
  - by rewrite (deref_live f rem m M c b).
  - by rewrite (deref_dead f rem m M c).
Qed.
Lemma is_commited_rel f rem m M c : rel f rem m M -> rem c ->
  is_commited M (f c) = h_is COMMITTED m c.
Proof.
  intros R Hc. unfold is_commited, h_is. destruct (h_boxes m !! c) as [b|] eqn:E.
  - by rewrite (deref_live f rem m M c b).
  - by rewrite (deref_dead f rem m M c).
Qed.

Lemma rel_assign f rem m M p a : rel f rem m M -> rem a ->
  rel f rem (Heap (<[p := a]> (h_cells m)) (h_boxes m) (h_sequence m))
            (set_cells (<[p := f a]> (cells M)) M).
Proof.
  intros R Ha. destruct R as [R1 R2 R3 R4 R5 R6 R7]. split; cbn; try done.
  - intros q. destruct (decide (q = p)) as [->|Hne]; [by rewrite !lookup_insert|].
    by rewrite !lookup_insert_ne.
  - intros q x. destruct (decide (q = p)) as [->|Hne].
    + rewrite lookup_insert. by intros [= <-].
    + rewrite lookup_insert_ne by done. apply R7.
Qed.

Lemma rel_unassign f rem m M p a : rel f rem m M -> rem a ->
  rel f rem (if decide (h_cells m !! p = Some a) then Heap (delete p (h_cells m)) (h_boxes m) (h_sequence m) else m)
            (unassign p (f a) M).
Proof.
  intros R Ha. unfold unassign.
  assert (Hiff : cells M !! p = Some (f a) <-> h_cells m !! p = Some a).
  { rewrite (r_cells _ _ _ _ R). destruct (h_cells m !! p) as [y|] eqn:E; cbn; [|done].
    split; [|by intros [= ->]]. intros [= Hf]. f_equal. apply (r_inj _ _ _ _ R); [|by right|done].
    right. by eapply (r_rem _ _ _ _ R). }
  destruct (decide (h_cells m !! p = Some a)) as [E|E].
  - rewrite decide_True by (by apply Hiff). destruct R as [R1 R2 R3 R4 R5 R6 R7]. split; cbn; try done.
    + intros q. destruct (decide (q = p)) as [->|Hne]; [by rewrite !lookup_delete|].
      by rewrite !lookup_delete_ne.
    + intros q x. destruct (decide (q = p)) as [->|Hne]; [by rewrite lookup_delete|].
      rewrite lookup_delete_ne by done. apply R7.
  - rewrite decide_False; [done|]. by intros ?%Hiff.
Qed.

Lemma rel_set_state f rem m M s a : rel f rem m M -> rem a ->
  match h_set_state s a m, set_state_from_new s (f a) M with
  | Some (m', ok), Some (M', ok') => ok' = ok /\ rel f rem m' M' /\ h_cells m' = h_cells m
  | None, None => True
  | _, _ => False
  end.
Proof.
  intros R Ha. unfold h_set_state, set_state_from_new. destruct (h_boxes m !! a) as [b|] eqn:E.
  2:{ by rewrite (deref_dead f rem m M a). }
  rewrite (deref_live f rem m M a b) by done. cbn. destruct (h_state b =? 0)%N; [|done].
  split; [done|]. split; [|done]. pose proof R as [R1 R2 R3 R4 R5 R6 R7].
  assert (Hin : forall x, is_Some (<[a:=HBox (h_id b) s]> (h_boxes m) !! x) -> is_Some (h_boxes m !! x)).
  { intros x. destruct (decide (x = a)) as [->|Hne]; [by rewrite E|]. by rewrite lookup_insert_ne. }
  split; cbn; try done.
  - intros x b'. destruct (decide (x = a)) as [->|Hne].
    + rewrite !lookup_insert. intros [= <-]. cbn. split; [done|]. by apply R3.
    + rewrite lookup_insert_ne by done. intros Hx. rewrite lookup_insert_ne; [by apply R3|].
      intros Hf. apply Hne. symmetry. apply R5; [rewrite E|rewrite Hx|done]; left; eauto.
  - intros x Hr. destruct (decide (x = a)) as [->|Hne]; [by rewrite lookup_insert|].
    rewrite lookup_insert_ne by done. intros Hx. rewrite lookup_insert_ne; [by apply R4|].
    intros Hf. apply Hne. symmetry. apply R5; [rewrite E; left; eauto|by right|done].
  - intros x y Hx Hy. apply R5; [destruct Hx|destruct Hy]; auto.
  - intros x Hx. apply R6. destruct Hx; auto.
Qed.

Lemma rel_drop f rem m M a : rel f rem m M -> rem a -> rel f rem (h_drop a m) (drop_box (f a) M).
Proof.
  intros R Ha. pose proof R as [R1 R2 R3 R4 R5 R6 R7].
  assert (Hb : exists st fr, boxes M !! f a = Some (Box st fr)).
  { destruct (h_boxes m !! a) as [b|] eqn:E; [exists (h_state b), false; by apply R3|].
    destruct (R4 a Ha E) as [st Hst]. eauto. }
  destruct Hb as (st & fr & Hb). unfold h_drop, drop_box. rewrite Hb.
  assert (Hin : forall x, is_Some (delete a (h_boxes m) !! x) -> is_Some (h_boxes m !! x)).
  { intros x [b Hx]. apply lookup_delete_Some in Hx as [_ Hx]. eauto. }
  split; cbn; try done.
  - intros x b Hx. apply lookup_delete_Some in Hx as [Hne Hx]. rewrite lookup_insert_ne; [by apply R3|].
    intros Hf. apply Hne. apply R5; [by right|left; eauto|done].
  - intros x Hr. destruct (decide (x = a)) as [->|Hne].
    + intros _. rewrite lookup_insert. eauto.
    + rewrite lookup_delete_ne by done. intros Hx. rewrite lookup_insert_ne; [by apply R4|].
      intros Hf. apply Hne. symmetry. apply R5; [by right|by right|done].
  - intros x y Hx Hy. apply R5; [destruct Hx|destruct Hy]; auto.
  - intros x Hx. apply R6. destruct Hx; auto.
Qed.

Lemma rel_unwind f rem m M (cl : list (N * list P)) : rel f rem m M -> (forall a, a ∈ cl.*1 -> rem a) ->
  rel f rem (foldr (fun (x : N * list P) => h_drop x.1) m cl)
            (foldr (fun (x : N * list P) => drop_box x.1) M (ren_cl f <$> cl)).
Proof.
  intros R. induction cl as [|[a own] cl IH]; intros Hc; [done|]. cbn. apply rel_drop.
  - apply IH. intros b Hb. apply Hc. by right.
  - apply Hc. left.
Qed.

Lemma rel_alloc f rem m M a : rel f rem m M -> h_boxes m !! a = None -> ~ rem a ->
  let n := (h_sequence m + 1)%N in
  let g x := if decide (x = a) then n else f x in
  rel g (fun x => rem x \/ x = a) (Heap (h_cells m) (<[a := HBox n 0]> (h_boxes m)) n)
        (Memory (cells M) (<[n := Box 0 false]> (boxes M)) n).
Proof.
  intros R Ha Hr n g. pose proof R as [R1 R2 R3 R4 R5 R6 R7].
  assert (Hg : forall x, rem x -> g x = f x).
  { intros x Hx. unfold g. destruct (decide (x = a)) as [->|]; done. }
  assert (Hg' : forall x, is_Some (h_boxes m !! x) -> g x = f x).
  { intros x [b Hx]. unfold g. destruct (decide (x = a)) as [->|]; [congruence|done]. }
  assert (Hga : g a = n) by (unfold g; by rewrite decide_True).
  assert (Hlt : forall x, is_Some (h_boxes m !! x) \/ rem x -> (f x < n)%N).
  { intros x Hx. specialize (R6 x Hx). unfold n. lia. }
  assert (Hk : forall x, is_Some (<[a:=HBox n 0]> (h_boxes m) !! x) \/ rem x \/ x = a ->
            x = a \/ ((is_Some (h_boxes m !! x) \/ rem x) /\ g x = f x)).
  { intros x Hx. destruct (decide (x = a)) as [->|Hne]; [by left|]. right.
    rewrite lookup_insert_ne in Hx by done. destruct Hx as [Hx|[Hx|Hx]]; [auto|auto|done]. }
  split; cbn; try done.
  - intros p. rewrite R1. destruct (h_cells m !! p) as [x|] eqn:E; [|done]. cbn. rewrite Hg; [done|].
    by eapply R7.
  - intros x b. destruct (decide (x = a)) as [->|Hne].
    + rewrite lookup_insert. intros [= <-]. cbn. rewrite Hga, lookup_insert. done.
    + rewrite lookup_insert_ne by done. intros Hx. rewrite Hg' by eauto. rewrite lookup_insert_ne.
      * by apply R3.
      * pose proof (Hlt x ltac:(left; eauto)). lia.
  - intros x Hx. destruct (decide (x = a)) as [->|Hne]; [by rewrite lookup_insert|].
    rewrite lookup_insert_ne by done. intros E. destruct Hx as [Hx|Hx]; [|done].
    rewrite Hg by done. rewrite lookup_insert_ne; [by apply R4|].
    pose proof (Hlt x ltac:(by right)). lia.
  - intros x y Hx Hy E. destruct (Hk x Hx) as [->|[Kx Ex]], (Hk y Hy) as [->|[Ky Ey]]; [done| | |].
    + rewrite Hga, Ey in E. pose proof (Hlt y Ky). lia.
    + rewrite Hga, Ex in E. pose proof (Hlt x Kx). lia.
    + apply R5; [done|done|congruence].
  - intros x Hx. destruct (Hk x Hx) as [->|[Kx Ex]]; [by rewrite Hga|].
    rewrite Ex. pose proof (Hlt x Kx). lia.
  - intros p x Hx. left. by eapply R7.
Qed.

Lemma alloc_at_free x m : h_boxes m !! alloc_at x m = None.
Proof.
  unfold alloc_at. destruct (decide _) as [_|E].
  - apply not_elem_of_dom. apply is_fresh.
  - by apply eq_None_not_Some.
Qed.

Lemma rel_mono f rem rem' m M : rel f rem m M -> (forall x, rem' x -> rem x) ->
  (forall p x, h_cells m !! p = Some x -> rem' x) -> rel f rem' m M.
Proof.
  intros [R1 R2 R3 R4 R5 R6 R7] Hs Hc. split; auto.
  - intros x y Hx Hy. apply R5; [destruct Hx|destruct Hy]; auto.
  - intros x Hx. apply R6. destruct Hx; auto.
Qed.

(** One step. *)
Lemma thread_sim f rem m M t x : rel f rem m M ->
  (forall a, a ∈ addresses t -> rem a) ->
  (forall a, owner (at_pc t) = Some a -> is_Some (h_boxes m !! a)) ->
  (forall pts, at_pc t <> Alloc pts) ->
  match h_thread_step query min checks x m t, thread_step query min checks M (ren f t) with
  | Some (m', t'), Some (M', T') =>
      T' = ren f t' /\ rel f rem m' M' /\ (forall a, a ∈ addresses t' -> rem a)
  | None, None => True
  | _, _ => False
  end.
Proof.
  intros R Had Hown Hna. destruct t as [y td cl]. unfold addresses in Had. cbn [at_pc clusters] in *.
  assert (Hcl : forall a, a ∈ cl.*1 -> rem a) by (intros; apply Had; set_solver).
  assert (Hpc : forall a, a ∈ pc_addresses y -> rem a) by (intros; apply Had; set_solver).
  assert (Goto : forall m' M' y', rel f rem m' M' -> (forall a, a ∈ pc_addresses y' -> rem a) ->
    Thread (ren_pc f y') td (ren_cl f <$> cl) = ren f (Thread y' td cl) /\ rel f rem m' M' /\
    (forall a, a ∈ addresses (Thread y' td cl) -> rem a)).
  { intros m' M' y' R' Hy'. split; [done|]. split; [done|]. unfold addresses. cbn.
    intros a [Ha|Ha]%elem_of_app; auto. }
  destruct y as [|qs acc|pts|a own rest i|a own pending k|a own rest i|a own p rest i c
    |a own p rest i c|a own p rest i c|a own p rest i c|a own|a own| |];
    match goal with |- context [ren f (Thread ?y td cl)] =>
      change (ren f (Thread y td cl)) with (Thread (ren_pc f y) td (ren_cl f <$> cl)) end;
    unfold h_thread_step, thread_step; cbn [at_pc todo clusters ren_pc].
  - (* Next *)
    destruct td as [|p td]; [by apply (Goto _ _ Done)|]. rewrite (r_cells _ _ _ _ R).
    destruct (h_cells m !! p) as [c|] eqn:E; cbn.
    + split; [done|]. split; [done|]. unfold addresses. cbn. set_solver.
    + destruct (query p) as [found|].
      * split; [done|]. split; [done|]. unfold addresses. cbn. set_solver.
      * unfold h_unwind, unwind. cbn. split; [done|]. split; [by apply rel_unwind|].
        unfold addresses. cbn. set_solver.
  - (* Filter *)
    destruct qs as [|q qs].
    + destruct (_ <=? _); [by apply (Goto _ _ (Alloc _))|by apply (Goto _ _ Next)].
    + rewrite (r_cells _ _ _ _ R). destruct (h_cells m !! q); cbn; by apply (Goto _ _ (Filter _ _)).
  - by destruct (Hna pts).
  - (* Check *)
    destruct rest as [|p rest]; [by apply (Goto _ _ (Commit _ _))|].
    rewrite (is_rolled_back_rel f rem m M a) by (done || (apply Hpc; left)).
    destruct (h_is ROLLED_BACK m a) as [[]|]; cbn; [by apply (Goto _ _ (Undo _ _ _ _))| |done].
    by apply (Goto _ _ (Assign _ _ _ _)).
  - (* Undo *)
    destruct pending as [|p pending].
    + destruct k as [[rest i]|]; [by apply (Goto _ _ (Assign _ _ _ _))|].
      apply (Goto _ _ Next); [|set_solver]. apply rel_drop; [done|]. apply Hpc. left.
    + apply (Goto _ _ (Undo _ _ _ _)); [|done]. apply rel_unassign; [done|]. apply Hpc. left.
  - (* Assign *)
    destruct rest as [|p rest]; [by apply (Goto _ _ (Commit _ _))|].
    unfold assign_cluster. rewrite (r_cells _ _ _ _ R).
    destruct (h_cells m !! p) as [c|] eqn:E; cbn.
    + apply (Goto _ _ (Conflict1 _ _ _ _ _ _)); [done|]. cbn. intros b Hb.
      apply elem_of_cons in Hb as [->|Hb]; [apply Hpc; left|].
      apply elem_of_list_singleton in Hb as ->. by eapply (r_rem _ _ _ _ R).
    + apply (Goto _ _ (Check _ _ _ _)); [|done]. apply rel_assign; [done|]. apply Hpc. left.
  - (* Conflict1 *)
    rewrite (is_commited_rel f rem m M c) by (done || (apply Hpc; cbn; set_solver)).
    destruct (h_is COMMITTED m c) as [[]|]; cbn; [| |done].
    + apply (Goto _ _ (Fail _ _)); [done|]. cbn in *. set_solver.
    + by apply (Goto _ _ (Conflict2 _ _ _ _ _ _)).
  - (* Conflict2 *)
    rewrite (is_rolled_back_rel f rem m M c) by (done || (apply Hpc; cbn; set_solver)).
    destruct (h_is ROLLED_BACK m c) as [[]|]; cbn; [| |done].
    + destruct (checks && _)%bool.
      * unfold h_unwind, unwind. cbn. split; [done|]. split; [|unfold addresses; cbn; set_solver].
        apply rel_unwind; [|done]. apply rel_drop; [done|]. apply Hpc. left.
      * apply (Goto _ _ (Check _ _ _ _)); [done|]. cbn in *. set_solver.
    + by apply (Goto _ _ (Conflict3 _ _ _ _ _ _)).
  - (* Conflict3 *)
    destruct (h_boxes m !! c) as [b|] eqn:E.
    2:{ rewrite (deref_dead f rem m M c); [done|done| |done]. apply Hpc. cbn. set_solver. }
    rewrite (deref_live f rem m M c b) by done. cbn.
    destruct (Hown a eq_refl) as [b' E']. rewrite E'. cbn.
    rewrite (proj2 (r_live _ _ _ _ R _ _ E)), (proj2 (r_live _ _ _ _ R _ _ E')).
    destruct (_ <? _)%N.
    + apply (Goto _ _ (Fail _ _)); [done|]. cbn in *. set_solver.
    + by apply (Goto _ _ (Conflict4 _ _ _ _ _ _)).
  - (* Conflict4 *)
    pose proof (rel_set_state f rem m M ROLLED_BACK c R ltac:(apply Hpc; cbn; set_solver)) as Hs.
    unfold rollback. destruct (h_set_state _ _ _) as [[m' ok]|], (set_state_from_new _ _ _) as [[M' ok']|]; cbn; try done.
    destruct Hs as (-> & R' & _). destruct ok.
    + apply (Goto _ _ (Check _ _ _ _)); [done|]. cbn in *. set_solver.
    + apply (Goto _ _ (Fail _ _)); [done|]. cbn in *. set_solver.
  - (* Fail *)
    pose proof (rel_set_state f rem m M ROLLED_BACK a R ltac:(apply Hpc; left)) as Hs.
    unfold rollback. destruct (h_set_state _ _ _) as [[m' ok]|], (set_state_from_new _ _ _) as [[M' ok']|]; cbn; try done.
    destruct Hs as (-> & R' & _). by apply (Goto _ _ (Undo _ _ _ _)).
  - (* Commit *)
    pose proof (rel_set_state f rem m M COMMITTED a R ltac:(apply Hpc; left)) as Hs.
    unfold commit. destruct (h_set_state _ _ _) as [[m' ok]|], (set_state_from_new _ _ _) as [[M' ok']|]; cbn; try done.
    destruct Hs as (-> & R' & _). destruct ok; [|by apply (Goto _ _ (Undo _ _ _ _))].
    split; [unfold ren; cbn; by rewrite fmap_app|]. split; [done|]. unfold addresses. cbn.
    rewrite fmap_app. cbn in *. set_solver.
  - by apply (Goto _ _ Done).
  - by apply (Goto _ _ Panicked).
Qed.

Lemma thread_sim_alloc f rem m M t x pts : rel f rem m M ->
  (forall a, a ∈ addresses t -> rem a) -> at_pc t = Alloc pts -> ~ rem (alloc_at x m) ->
  let a := alloc_at x m in
  exists g m' t' M', h_thread_step query min checks x m t = Some (m', t') /\
    thread_step query min checks M (ren f t) = Some (M', ren g t') /\
    (forall y, rem y -> g y = f y) /\ rel g (fun y => rem y \/ y = a) m' M' /\
    (forall y, y ∈ addresses t' -> rem y \/ y = a).
Proof.
  intros R Had Ep Hr a. destruct t as [y td cl]. cbn in Ep. subst y.
  pose proof (rel_alloc f rem m M a R (alloc_at_free x m) Hr) as R'. cbn zeta in R'.
  set (g := fun y => _) in R'.
  assert (Hg : forall y, rem y -> g y = f y).
  { intros y Hy. unfold g. destruct (decide (y = a)) as [->|]; done. }
  eexists g, _, _, _. split; [reflexivity|]. split.
  { unfold thread_step, ren. cbn. rewrite (r_seq _ _ _ _ R). f_equal. f_equal.
    unfold ren_pc. fold a. f_equal.
    - unfold g. by rewrite decide_True.
    - apply list_fmap_ext. intros i [b own] Hi. unfold ren_cl. cbn. f_equal. symmetry. apply Hg, Had.
      unfold addresses. cbn. apply elem_of_app. left. apply elem_of_list_fmap. exists (b, own).
      split; [done|]. by eapply elem_of_list_lookup_2. }
  split; [done|]. split; [exact R'|]. unfold addresses in *. cbn in *. fold a.
  intros y [Hy|Hy]%elem_of_app; [left; apply Had; set_solver|]. right. by apply elem_of_list_singleton in Hy.
Qed.

(** ** Whole systems *)
Notation system := (system (P := P)).
Notation h_system := (h_system (P := P)).

Record sim f (s : h_system) (F : system) : Prop := {
  sim_undefined : h_undefined s = undefined F;
  sim_rel : rel f (remembered s) (h_mem s) (mem F);
  sim_threads : threads F = ren f <$> h_threads s;
}.

Lemma addresses_remembered s t i a : h_threads s !! i = Some t -> a ∈ addresses t -> remembered s a.
Proof.
  intros Ht Ha. right. exists t. split; [by eapply elem_of_list_lookup_2|].
  by apply elem_of_app in Ha.
Qed.

Lemma owner_ren f (y : pc P) : owner (ren_pc f y) = f <$> owner y.
Proof. by destruct y. Qed.

Section Run.
Context (n : N) (chunks : list (list P)).
Notation m0 := (Memory ∅ ∅ n : memory).
Notation start := (System m0 (cluster_slice_start query <$> chunks) false).
Notation hrun l := (h_run query min checks (h_start query n chunks) l).
Notation run l := (run_schedule query min checks start l).

Lemma run_inv0 l : undefined (run l) = false -> inv query m0 chunks (run l).
Proof.
  intros Hu. apply run_inv; [|apply start_inv|done]; constructor; intros p a; cbn; by rewrite lookup_empty.
Qed.

(** A box that the fresh execution says is live is live. *)
Lemma live_of f s F a st : sim f s F -> remembered s a -> boxes (mem F) !! f a = Some (Box st false) ->
  exists b, h_boxes (h_mem s) !! a = Some b /\ h_id b = f a.
Proof.
  intros Hs Ha Hb. destruct (h_boxes (h_mem s) !! a) as [b|] eqn:E.
  - exists b. split; [done|]. by apply (r_live _ _ _ _ (sim_rel _ _ _ Hs)).
  - destruct (r_dead _ _ _ _ (sim_rel _ _ _ Hs) _ Ha E) as [st' Hd]. congruence.
Qed.

Lemma step_sim f s F e : sim f s F -> inv query m0 chunks F -> ~ stale_reuse s e ->
  exists g, sim g (h_step query min checks s e) (system_step query min checks F e.1).
Proof.
  intros Hs HI Hst. unfold h_step, system_step. pose proof Hs as [Hu R Ht]. rewrite <- Hu.
  destruct (h_undefined s) eqn:Eu; [by exists f|]. rewrite Ht, list_lookup_fmap.
  destruct (h_threads s !! e.1) as [t|] eqn:Et; cbn; [|by exists f].
  assert (Had : forall a, a ∈ addresses t -> remembered s a) by (intros; by eapply addresses_remembered).
  (* what remains to be shown after a step *)
  assert (Fin : forall g m' t' M' rem', (forall a, remembered s a -> g a = f a) ->
    rel g rem' m' M' -> (forall a, remembered s a -> rem' a) ->
    (forall a, a ∈ addresses t' -> rem' a) ->
    sim g (HSystem m' (<[e.1:=t']> (h_threads s)) false)
          (System M' (<[e.1:=ren g t']> (ren f <$> h_threads s)) false)).
  { intros g m' t' M' rem' Hg R' Hrem Ha. split; cbn; [done| |].
    - eapply rel_mono; [exact R'| |].
      + intros a [[p Hp]|(u & Hin & Hua)]; [by eapply (r_rem _ _ _ _ R')|]. cbn in Hin.
        apply elem_of_list_lookup in Hin as [j Hj]. apply list_lookup_insert_Some in Hj as [(_ & <- & _)|[_ Hj]].
        * apply Ha. by apply elem_of_app.
        * apply Hrem. eapply addresses_remembered; [exact Hj|]. by apply elem_of_app.
      + intros p a Hp. left. by exists p.
    - rewrite list_fmap_insert. f_equal. apply list_fmap_ext. intros j u Hj. symmetry. apply ren_ext.
      intros a Hua. apply Hg. by eapply addresses_remembered. }
  assert (Hd : (exists pts, at_pc t = Alloc pts) \/ ~ exists pts, at_pc t = Alloc pts).
  { destruct (at_pc t); first [left; by eexists|right; intros [pts Ep]; discriminate Ep]. }
  destruct Hd as [[pts Ep]|Hna].
  - destruct (thread_sim_alloc f (remembered s) (h_mem s) (mem F) t e.2 pts R Had Ep) as
      (g & m' & t' & M' & -> & -> & Hg & R' & Ha).
    { intros Hr. apply Hst. by exists t, pts. }
    exists g. eapply Fin; [done|exact R'|by left|exact Ha].
  - assert (Hown : forall a, owner (at_pc t) = Some a -> is_Some (h_boxes (h_mem s) !! a)).
    { intros a Ho.
      assert (Hi : threads F !! e.1 = Some (ren f t)) by (rewrite Ht, list_lookup_fmap; by rewrite Et).
      destruct (lookup_lt_is_Some_2 chunks e.1) as [ch Hch].
      { rewrite <- (i_len _ _ _ _ HI). by eapply lookup_lt_Some. }
      destruct (t_owner _ _ _ _ (i_thread _ _ _ _ HI _ _ _ Hi Hch) (f a)) as [st Hb].
      { unfold ren. cbn. by rewrite owner_ren, Ho. }
      destruct (live_of f s F a st Hs) as (b & Hb' & _); [|done|eauto].
      apply Had. unfold addresses. apply elem_of_app. right.
      destruct (at_pc t); cbn in *; simplify_eq; set_solver. }
    pose proof (thread_sim f (remembered s) (h_mem s) (mem F) t e.2 R Had Hown) as Hsim.
    specialize (Hsim ltac:(intros pts Ep; apply Hna; eauto)).
    destruct (h_thread_step query min checks e.2 (h_mem s) t) as [[m' t']|],
      (thread_step query min checks (mem F) (ren f t)) as [[M' T']|]; try done.
    + destruct Hsim as (-> & R' & Ha). exists f. eapply Fin; [done|exact R'|done|exact Ha].
    + exists f. by split.
Qed.

Lemma start_ren (ch : list P) : ren (fun a => a) (cluster_slice_start query ch) = cluster_slice_start query ch.
Proof. unfold cluster_slice_start. by destruct (sort_by_most_number_of_similar_points query ch). Qed.
Lemma start_addresses (ch : list P) : addresses (cluster_slice_start query ch) = [].
Proof. unfold cluster_slice_start. by destruct (sort_by_most_number_of_similar_points query ch). Qed.

Lemma start_not_remembered a : ~ remembered (h_start query n chunks) a.
Proof.
  intros [[p Hp]|(t & Ht & Ha)]; cbn in *; [by rewrite lookup_empty in Hp|].
  apply elem_of_list_fmap in Ht as (ch & -> & _).
  apply elem_of_app in Ha. fold (addresses (cluster_slice_start query ch)) in Ha.
  rewrite start_addresses in Ha. by apply elem_of_nil in Ha.
Qed.

Lemma start_sim : sim (fun a => a) (h_start query n chunks) start.
Proof.
  split; cbn; [done| |].
  - split; cbn; try done.
    + intros x Hx. by destruct (start_not_remembered x).
    + intros x [Hx|Hx]; [by destruct Hx|by destruct (start_not_remembered x)].
  - rewrite <- list_fmap_compose. apply list_fmap_ext. intros i ch _. cbn. by rewrite start_ren.
Qed.

Lemma no_stale_snoc l e : no_stale_reuse query min checks (h_start query n chunks) (l ++ [e]) ->
  no_stale_reuse query min checks (h_start query n chunks) l /\
  (h_undefined (hrun l) = false -> ~ stale_reuse (hrun l) e).
Proof.
  intros Hn. split.
  - intros k e' Hk. pose proof (lookup_lt_Some _ _ _ Hk) as Hlt.
    specialize (Hn k e'). rewrite lookup_app_l, take_app_le in Hn by lia. auto.
  - specialize (Hn (length l) e). rewrite take_app in Hn. apply Hn.
    rewrite lookup_app_r by lia. by rewrite Nat.sub_diag.
Qed.

Lemma no_stale_intro l e : no_stale_reuse query min checks (h_start query n chunks) l ->
  (h_undefined (hrun l) = false -> ~ stale_reuse (hrun l) e) ->
  no_stale_reuse query min checks (h_start query n chunks) (l ++ [e]).
Proof.
  intros Hn He k e' Hk. destruct (decide (k < length l)) as [Hlt|Hge].
  - rewrite lookup_app_l in Hk by done. rewrite take_app_le by lia. by apply Hn.
  - rewrite lookup_app_r in Hk by lia. apply list_lookup_singleton_Some in Hk as [Hz <-].
    replace k with (length l) by lia. by rewrite take_app.
Qed.

Lemma run_snoc l i : run (l ++ [i]) = system_step query min checks (run l) i.
Proof. unfold run_schedule. by rewrite fold_left_app. Qed.
Lemma hrun_snoc l e : hrun (l ++ [e]) = h_step query min checks (hrun l) e.
Proof. unfold h_run. by rewrite fold_left_app. Qed.

Lemma run_sim l : no_stale_reuse query min checks (h_start query n chunks) l ->
  exists f, sim f (hrun l) (run l.*1).
Proof.
  induction l as [|e l IH] using rev_ind; intros Hn; [exists (fun a => a); apply start_sim|].
  destruct (no_stale_snoc l e Hn) as [Hl He]. destruct (IH Hl) as [f Hs].
  rewrite fmap_app, hrun_snoc. cbn [fmap list_fmap]. rewrite run_snoc.
  destruct (h_undefined (hrun l)) eqn:Eu.
  - exists f. unfold h_step, system_step. rewrite Eu, <- (sim_undefined _ _ _ Hs), Eu. done.
  - apply (step_sim f); [done| |by apply He]. apply run_inv0. by rewrite <- (sim_undefined _ _ _ Hs).
Qed.

Lemma sim_result f l l' : sim f (hrun l) (run l') -> h_result (hrun l) = result (run l').
Proof.
  intros Hs. unfold h_result, result. rewrite (sim_threads _ _ _ Hs), <- (sim_undefined _ _ _ Hs).
  assert (E : forall ts, forallb is_done (ren f <$> ts) = forallb is_done ts).
  { induction ts as [|t ts IHt]; [done|]. cbn. rewrite IHt. f_equal. unfold is_done. cbn. by destruct (at_pc t). }
  rewrite E. destruct (forallb _ _); [|done]. cbn. destruct (h_undefined (hrun l)) eqn:Eu; [done|]. cbn. f_equal.
  assert (HI : inv query m0 chunks (run l')).
  { apply run_inv0. by rewrite <- (sim_undefined _ _ _ Hs). }
  transitivity (ren_cl f <$> concat (clusters <$> h_threads (hrun l))).
  - apply list_fmap_ext. intros j [a own] Hj. unfold ren_cl. cbn. f_equal. unfold h_id_at.
    apply elem_of_list_lookup_2, elem_of_list_In, in_concat in Hj as (cl & Hin & Hc).
    apply elem_of_list_In in Hin, Hc.
    apply elem_of_list_fmap in Hin as (t & -> & Hin). apply elem_of_list_lookup in Hin as [i Hi].
    assert (Hi' : threads (run l') !! i = Some (ren f t)).
    { rewrite (sim_threads _ _ _ Hs), list_lookup_fmap. by rewrite Hi. }
    destruct (lookup_lt_is_Some_2 chunks i) as [ch Hch].
    { rewrite <- (i_len _ _ _ _ HI). by eapply lookup_lt_Some. }
    destruct (t_clusters _ _ _ _ (i_thread _ _ _ _ HI _ _ _ Hi' Hch) (f a) own) as [_ Hb].
    { unfold ren. cbn. apply elem_of_list_fmap. exists (a, own). done. }
    destruct (live_of f _ _ a 1%N Hs) as (b & -> & Hb'); [|done|done].
    eapply addresses_remembered; [exact Hi|]. unfold addresses. apply elem_of_app. left.
    apply elem_of_list_fmap. exists (a, own). done.
  - induction (h_threads (hrun l)) as [|t ts IHt]; [done|]. cbn. rewrite fmap_app, IHt. done.
Qed.

Lemma sim_cells f l l' p : sim f (hrun l) (run l') ->
  (h_cells (h_mem (hrun l)) !! p = None <-> cells (mem (run l')) !! p = None) /\
  forall a b, h_cells (h_mem (hrun l)) !! p = Some a -> h_boxes (h_mem (hrun l)) !! a = Some b ->
    cells (mem (run l')) !! p = Some (h_id b) /\
    boxes (mem (run l')) !! h_id b = Some (Box (h_state b) false).
Proof.
  intros Hs. rewrite (r_cells _ _ _ _ (sim_rel _ _ _ Hs)). split.
  - by destruct (h_cells (h_mem (hrun l)) !! p).
  - intros a b -> Hb. destruct (r_live _ _ _ _ (sim_rel _ _ _ Hs) a b Hb) as [H1 H2]. cbn.
    by rewrite H2.
Qed.

(** Some address is neither live nor remembered. *)
Lemma unused_address (s : h_system) : exists x, h_boxes (h_mem s) !! x = None /\ ~ remembered s x.
Proof.
  set (C := list_to_set ((map_to_list (h_cells (h_mem s))).*2) : gset N).
  set (A := list_to_set (concat (addresses <$> h_threads s)) : gset N).
  exists (fresh (dom (h_boxes (h_mem s)) ∪ C ∪ A)).
  pose proof (is_fresh (dom (h_boxes (h_mem s)) ∪ C ∪ A)) as Hf. set (x := fresh _) in *. clearbody x.
  apply not_elem_of_union in Hf as [[H1 H2]%not_elem_of_union H3]. split; [by apply not_elem_of_dom|].
  intros [[p Hp]|(t & Ht & Ha)].
  - apply H2. apply elem_of_list_to_set, elem_of_list_fmap. exists (p, x). split; [done|].
    by apply elem_of_map_to_list.
  - apply H3. apply elem_of_list_to_set, elem_of_list_In, in_concat. exists (addresses t).
    split; apply elem_of_list_In; [by apply elem_of_list_fmap_1|by apply elem_of_app].
Qed.

Lemma all_schedules l : exists l', l'.*1 = l /\ no_stale_reuse query min checks (h_start query n chunks) l'.
Proof.
  induction l as [|i l (l' & <- & Hn)] using rev_ind.
  { exists []. split; [done|]. intros k e Hk. by rewrite lookup_nil in Hk. }
  destruct (unused_address (hrun l')) as (x & Hx & Hr). exists (l' ++ [(i, x)]).
  split; [by rewrite fmap_app|]. apply no_stale_intro; [done|]. intros _ (t & pts & _ & _ & Hrem).
  cbn in Hrem. unfold alloc_at in Hrem. rewrite decide_False in Hrem; [done|]. rewrite Hx. by intros [? ?].
Qed.

(** If no box is ever freed in the fresh executions, nothing stale is ever given out. *)
Lemma never_freed : (forall l a b, boxes (mem (run l)) !! a = Some b -> freed b = false) ->
  forall l, no_stale_reuse query min checks (h_start query n chunks) l.
Proof.
  intros Hf l. induction l as [|e l IH] using rev_ind.
  { intros k e Hk. by rewrite lookup_nil in Hk. }
  apply no_stale_intro; [done|]. intros _ (t & pts & _ & _ & Hrem).
  destruct (run_sim l IH) as [f Hs].
  destruct (r_dead _ _ _ _ (sim_rel _ _ _ Hs) _ Hrem (alloc_at_free _ _)) as [st Hb].
  by specialize (Hf _ _ _ Hb).
Qed.
End Run.

(** A check for concrete executions. *)
Definition stale_b (s : h_system) (e : nat * N) : bool :=
  match h_threads s !! e.1 with
  | Some (Thread (Alloc _) _ _) =>
      bool_decide (alloc_at e.2 (h_mem s) ∈
        (map_to_list (h_cells (h_mem s))).*2 ++ concat (addresses <$> h_threads s))
  | _ => false
  end.
Fixpoint no_stale_b (s : h_system) (l : list (nat * N)) : bool :=
  match l with
  | [] => true
  | e :: l' => (h_undefined s || negb (stale_b s e)) && no_stale_b (h_step query min checks s e) l'
  end.
Lemma stale_b_complete s e : stale_reuse s e -> stale_b s e = true.
Proof.
  intros ([y td cl] & pts & Ht & Hp & Hr). unfold stale_b. rewrite Ht. cbn in Hp. subst y.
  apply bool_decide_eq_true. apply elem_of_app. destruct Hr as [[p Hc]|(u & Hu & Ha)].
  - left. apply elem_of_list_fmap. eexists (p, _). split; [done|]. by apply elem_of_map_to_list.
  - right. apply elem_of_list_In, in_concat. exists (addresses u). split; apply elem_of_list_In.
    + by apply elem_of_list_fmap_1.
    + by apply elem_of_app.
Qed.
Lemma no_stale_b_sound s l : no_stale_b s l = true -> no_stale_reuse query min checks s l.
Proof.
  revert s. induction l as [|e l IH]; intros s; cbn.
  { intros _ k e Hk. by rewrite lookup_nil in Hk. }
  intros [H1 H2]%andb_true_iff [|k] e' Hk.
  - cbn in Hk |- *. injection Hk as <-. intros Hu Hs. rewrite Hu in H1. cbn in H1.
    by rewrite (stale_b_complete _ _ Hs) in H1.
  - cbn in Hk |- *. by apply (IH _ H2).
Qed.
End Facts.
