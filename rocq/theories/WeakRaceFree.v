(** The parallel clusterer under relaxed memory: executions without data races. *)
From stdpp Require Import base list gmap.
From Coq Require Import NArith.
From Verif Require Import ListFacts Base ParallelClusterer SpecParallel ParallelClustererFacts
  ParallelClustererSingle ParallelClustererRaces WeakClusterer WeakFacts.
Local Open Scope nat_scope.

Section RaceFree.
Context {P : Type} `{Countable P}.
Context (query : P -> res (list P)) (min : nat) (checks : bool).
Context (Hnd : forall p found, query p = Some found -> NoDup found).
Notation memory := (memory P).
Notation thread := (thread P).
Notation system := (system (P := P)).
Notation weak := (weak P).
Notation weak_thread_step := (weak_thread_step query min checks).
Notation weak_step := (weak_step query min checks).
Notation weak_run := (weak_run query min checks).
Notation weak_trace := (weak_trace query min checks).
Notation weak_accesses := (weak_accesses query checks).
Notation thread_step := (thread_step query min checks).
Implicit Types (m : memory) (t : thread) (s : system) (w : weak) (a c : N) (p x : P)
  (tr : list (nat * (N * access))).

(** ** Views *)
Lemma view_set s' ps w i p n k x : i < length (views w) ->
  view (Weak s' ps (set_view i p n (views w))) k x = if decide (k = i /\ x = p) then n else view w k x.
Proof.
  intros Hi. unfold view, set_view. cbn [views]. destruct (decide (k = i)) as [->|Hk].
  - rewrite list_lookup_alter. destruct (lookup_lt_is_Some_2 (views w) i Hi) as [v Hv]. rewrite Hv. cbn.
    destruct (decide (x = p)) as [->|Hx].
    + rewrite lookup_insert. by rewrite decide_True.
    + rewrite lookup_insert_ne by done. rewrite decide_False by naive_solver. done.
  - rewrite list_lookup_alter_ne by done. rewrite decide_False by naive_solver. done.
Qed.

(** ** The invariant *)
Section Inv.
Context (m0 : memory) (chunks : list (list P)).

(** Points that the thread has seen unassigned. *)
Definition pend w i (l : list P) : Prop :=
  NoDup l /\ forall x, x ∈ l -> cells m0 !! x = None /\ view w i x = 0.
Definition claimed m a (l : list P) : Prop :=
  NoDup l /\ forall x, x ∈ l -> cells m0 !! x = None /\ cells m !! x = Some a.
Definition assigned m x : Prop := is_Some (cells m !! x).
Definition settled m p : Prop := assigned m p \/ exists found, query p = Some found /\
  (filter (fun x => cells m !! x = None) found = [] \/ length (filter (fun x => cells m !! x = None) found) < min).

Definition pc_rf w tr i (x : pc P) : Prop :=
  let m := mem (w_sys w) in
  match x with
  | Next | Done => True
  | Panicked => exists ch p, chunks !! i = Some ch /\ p ∈ ch /\ query p = None
  | Filter qs acc => NoDup (acc ++ qs) /\ pend w i acc
  | Alloc pts => pend w i pts /\ min <= length pts
  | Check a own rest _ | Assign a own rest _ =>
      pend w i rest /\ claimed m a own /\ min <= length own + length rest /\ boxes m !! a = Some (Box 0 false)
  | Commit a own => claimed m a own /\ min <= length own /\ boxes m !! a = Some (Box 0 false)
  | Conflict1 a own _ _ _ c => exists j, j <> i /\ (j, (c, Init)) ∈ tr
  | _ => False
  end.

(** [o] is the point being visited. *)
Definition seed_ok m (o : option P) t : Prop :=
  match at_pc t with
  | Next => o = None
  | Done => o = None /\ todo t = []
  | Filter qs acc => exists p found pre, o = Some p /\ query p = Some found /\ found = pre ++ qs /\
      forall x, x ∈ pre -> x ∈ acc \/ assigned m x
  | Alloc pts => exists p found, o = Some p /\ query p = Some found /\ forall x, x ∈ found -> x ∈ pts \/ assigned m x
  | Check _ own rest _ | Assign _ own rest _ => exists p found, o = Some p /\ query p = Some found /\
      forall x, x ∈ found -> x ∈ own ++ rest \/ assigned m x
  | Commit _ own => exists p found, o = Some p /\ query p = Some found /\ forall x, x ∈ found -> x ∈ own \/ assigned m x
  | _ => True
  end.
Definition stuck t : Prop := match at_pc t with Conflict1 _ _ _ _ _ _ | Panicked => True | _ => False end.
Definition visited m (ch : list P) t : Prop :=
  stuck t \/ exists o, seed_ok m o t /\ forall p, p ∈ ch -> p ∈ todo t \/ settled m p \/ o = Some p.

Record thread_rf w tr i (ch : list P) t : Prop := {
  q_pc : pc_rf w tr i (at_pc t);
  q_clusters : forall a own, (a, own) ∈ clusters t -> min <= length own /\ claimed (mem (w_sys w)) a own;
  q_visited : visited (mem (w_sys w)) ch t;
}.

Definition cell_rf w tr p : Prop :=
  (earlier w p = [] /\ cells (mem (w_sys w)) !! p = cells m0 !! p) \/
  (earlier w p = [None] /\ cells m0 !! p = None /\
   exists c j, cells (mem (w_sys w)) !! p = Some c /\ (j, (c, Init)) ∈ tr /\ view w j p = 1).

Record rf w tr : Prop := {
  r_def : undefined (w_sys w) = false;
  r_len : length (views w) = length (threads (w_sys w));
  r_init : forall i t a, threads (w_sys w) !! i = Some t -> a ∈ ids t -> (i, (a, Init)) ∈ tr;
  r_cell : forall p, cell_rf w tr p;
  r_thread : forall i t ch, threads (w_sys w) !! i = Some t -> chunks !! i = Some ch -> thread_rf w tr i ch t;
  r_view : forall i t x, threads (w_sys w) !! i = Some t -> view w i x <= length (earlier w x);
}.

(** ** What stays *)
Definition grows m m' : Prop := forall x c, cells m !! x = Some c -> cells m' !! x = Some c.

Lemma assigned_grows m m' x : grows m m' -> assigned m x -> assigned m' x.
Proof. intros Hg [c Hc]. exists c. by apply Hg. Qed.
Lemma free_sublist m m' l : grows m m' ->
  filter (fun x => cells m' !! x = None) l `sublist_of` filter (fun x => cells m !! x = None) l.
Proof.
  intros Hg. induction l as [|x l IH]; [done|]. rewrite !filter_cons.
  destruct (decide (cells m' !! x = None)) as [E'|E']; destruct (decide (cells m !! x = None)) as [E|E]; [by constructor| |by constructor|done].
  destruct (cells m !! x) as [c|] eqn:Ec; [|done]. apply Hg in Ec. congruence.
Qed.
Lemma settled_grows m m' p : grows m m' -> settled m p -> settled m' p.
Proof.
  intros Hg [Ha|(found & Hf & Hs)]; [left; by eapply assigned_grows|right]. exists found. split; [done|].
  pose proof (free_sublist m m' found Hg) as Hsub. destruct Hs as [E|E].
  - left. rewrite E in Hsub. by apply sublist_nil_r in Hsub.
  - right. apply sublist_length in Hsub. lia.
Qed.
Lemma claimed_grows m m' a l : grows m m' -> claimed m a l -> claimed m' a l.
Proof. intros Hg [Hn Hc]. split; [done|]. intros x Hx. destruct (Hc x Hx) as [? ?]. auto. Qed.
Lemma seed_grows m m' o t : grows m m' -> seed_ok m o t -> seed_ok m' o t.
Proof.
  intros Hg. pose proof (fun x => assigned_grows m m' x Hg) as Ha. unfold seed_ok.
  destruct (at_pc t); try done.
  - intros (p & found & pre & H1 & H2 & H3 & H4). exists p, found, pre. split_and!; try done.
    intros x Hx. destruct (H4 x Hx); auto.
  - intros (p & found & H1 & H2 & H4). exists p, found. split_and!; try done. intros x Hx. destruct (H4 x Hx); auto.
  - intros (p & found & H1 & H2 & H4). exists p, found. split_and!; try done. intros x Hx. destruct (H4 x Hx); auto.
  - intros (p & found & H1 & H2 & H4). exists p, found. split_and!; try done. intros x Hx. destruct (H4 x Hx); auto.
  - intros (p & found & H1 & H2 & H4). exists p, found. split_and!; try done. intros x Hx. destruct (H4 x Hx); auto.
Qed.
Lemma visited_grows m m' ch t : grows m m' -> visited m ch t -> visited m' ch t.
Proof.
  intros Hg [?|(o & Ho & Hv)]; [by left|right]. exists o. split; [by eapply seed_grows|].
  intros p Hp. destruct (Hv p Hp) as [?|[?|?]]; auto. right. left. by eapply settled_grows.
Qed.

(** A thread that does not move. *)
Lemma other_rf w w' tr tr' i ch t : thread_rf w tr i ch t ->
  grows (mem (w_sys w)) (mem (w_sys w')) -> (forall x, view w' i x = view w i x) ->
  (forall a, owner (at_pc t) = Some a -> boxes (mem (w_sys w')) !! a = boxes (mem (w_sys w)) !! a) ->
  (forall e, e ∈ tr -> e ∈ tr') -> thread_rf w' tr' i ch t.
Proof.
  intros [Q1 Q2 Q3] Hg Hv Hb Htr. split.
  - assert (Hp : forall l, pend w i l -> pend w' i l).
    { intros l [H1 H2]. split; [done|]. intros x Hx. rewrite Hv. auto. }
    pose proof (fun a l => claimed_grows _ _ a l Hg) as Hc.
    destruct (at_pc t); cbn [pc_rf owner] in *; try done.
    + destruct Q1 as [? ?]. auto.
    + destruct Q1 as [? ?]. auto.
    + destruct Q1 as (? & ? & ? & ?). rewrite Hb by done. auto.
    + destruct Q1 as (? & ? & ? & ?). rewrite Hb by done. auto.
    + destruct Q1 as (j & ? & ?). eauto.
    + destruct Q1 as (? & ? & ?). rewrite Hb by done. auto.
  - intros a own Hin. destruct (Q2 a own Hin) as [? ?]. split; [done|]. by eapply claimed_grows.
  - by eapply visited_grows.
Qed.

(** ** A step *)
Lemma old_null w tr i t j p v : cell_rf w tr p -> old_value w i t j = Some (p, v) ->
  v = None /\ j = 0 /\ view w i p = 0 /\ earlier w p = [None] /\ cells m0 !! p = None /\ exchanges t = false.
Proof.
  intros Hc Ho. apply old_value_looks in Ho as (_ & Hv & He & Hx).
  destruct Hc as [[E _]|(E & Hm & _)]; rewrite E in He; [done|].
  destruct j as [|j]; [|done]. cbn in He. injection He as <-.
  split_and!; try done; [lia|]. destruct (exchanges t); [|done]. by destruct (Hx eq_refl).
Qed.

(** Reading a pointer: what is seen, and the view afterwards. *)
Lemma look w tr i t j p : cell_rf w tr p -> looks_at t = Some p -> view w i p <= length (earlier w p) ->
  let r := match old_value w i t j with Some (_, v) => v | None => cells (mem (w_sys w)) !! p end in
  view w i p <= position w i t j p <= length (earlier w p) /\
  (r = None -> cells m0 !! p = None /\ position w i t j p = 0) /\
  (forall c, r = Some c -> cells (mem (w_sys w)) !! p = Some c).
Proof.
  intros Hc Hl Hv. unfold position. destruct (old_value w i t j) as [[p' v]|] eqn:Eo; cbn zeta.
  - assert (p' = p) as -> by (apply old_value_looks in Eo as (E & _); congruence).
    destruct (old_null w tr i t j p v Hc Eo) as (-> & -> & Hv0 & He & Hm & _). rewrite He, Hv0. cbn. split_and!; [lia|lia|done|done].
  - split; [lia|]. split; [|auto]. intros Hn. destruct Hc as [[E1 E2]|(_ & _ & c & k & E & _)]; [|congruence].
    rewrite E1. split; [congruence|done].
Qed.

Lemma finish w tr w' tr' i t m' t' ch :
  inv query m0 chunks (w_sys w) -> rf w tr -> threads (w_sys w) !! i = Some t -> chunks !! i = Some ch ->
  w_sys w' = System m' (<[i := t']> (threads (w_sys w))) false -> length (views w') = length (views w) ->
  (forall e, e ∈ tr -> e ∈ tr') -> grows (mem (w_sys w)) m' ->
  (forall a, a ∉ ids t -> (a <= sequence (mem (w_sys w)))%N -> boxes m' !! a = boxes (mem (w_sys w)) !! a) ->
  (forall k x, k <> i -> view w' k x = view w k x) ->
  (forall a, a ∈ ids t' -> (i, (a, Init)) ∈ tr') ->
  (forall p, cell_rf w' tr' p) ->
  (forall x, view w' i x <= length (earlier w' x)) ->
  (forall x, length (earlier w x) <= length (earlier w' x)) ->
  thread_rf w' tr' i ch t' -> rf w' tr'.
Proof.
  intros HI [R1 R2 R3 R4 R5 R6] Ht Hch Hs Hlen Htr Hg Hb Hv Hids Hcell Hview Hear Hrf.
  assert (Hl : forall k u, threads (w_sys w') !! k = Some u -> (k = i /\ u = t') \/ (k <> i /\ threads (w_sys w) !! k = Some u)).
  { intros k u. rewrite Hs. cbn. intros Hu. destruct (decide (k = i)) as [->|Hne].
    - rewrite list_lookup_insert in Hu by (by eapply lookup_lt_Some). left. split; [done|congruence].
    - rewrite list_lookup_insert_ne in Hu by done. by right. }
  split.
  - by rewrite Hs.
  - rewrite Hs. cbn. by rewrite insert_length, Hlen.
  - intros k u a [[-> ->]|[Hne Hu]]%Hl Ha; [by apply Hids|]. apply Htr. by eapply R3.
  - done.
  - intros k u ch' [[-> ->]|[Hne Hu]]%Hl Hch'; [by rewrite Hch in Hch'; injection Hch' as <-|].
    apply (other_rf w w' tr); [by apply R5|by rewrite Hs|auto| |done].
    intros a Ha. rewrite Hs. cbn [mem]. apply Hb.
    + intros Hin. apply (i_disj _ _ _ _ HI i k t u a (not_eq_sym Hne) Ht Hu Hin). by apply owner_ids.
    + destruct (i_ids _ _ _ _ HI k u Hu) as [_ Hr]. specialize (Hr a (owner_ids _ _ Ha)). lia.
  - intros k u x [[-> ->]|[Hne Hu]]%Hl; [done|]. rewrite Hv by done. etrans; [by eapply R6|done].
Qed.

Lemma earlier_past s1 s2 ps v1 v2 x : earlier (Weak s1 ps v1 : weak) x = earlier (Weak s2 ps v2 : weak) x.
Proof. done. Qed.

(** A step that neither looks at a pointer nor changes one. *)
Lemma step_none w i t j m' t' : undefined (w_sys w) = false -> threads (w_sys w) !! i = Some t ->
  weak_thread_step w i t j = Some (m', t') -> looks_at t = None -> writes_cell t = None ->
  weak_step w (i, j) = Weak (System m' (<[i := t']> (threads (w_sys w))) false) (past w) (views w).
Proof. intros Hu Ht Hs Hl Hw. unfold WeakClusterer.weak_step, changed. by rewrite Hu, Ht, Hs, Hl, Hw. Qed.
(** A step that looks at a pointer without changing it. *)
Lemma step_look w i t j m' t' p : undefined (w_sys w) = false -> threads (w_sys w) !! i = Some t ->
  weak_thread_step w i t j = Some (m', t') -> looks_at t = Some p -> cells m' = cells (mem (w_sys w)) ->
  weak_step w (i, j) = Weak (System m' (<[i := t']> (threads (w_sys w))) false) (past w)
                         (set_view i p (position w i t j p) (views w)).
Proof.
  intros Hu Ht Hs Hl Hc. unfold WeakClusterer.weak_step, changed. rewrite Hu, Ht, Hs, Hl, Hc.
  destruct (writes_cell t) as [q|]; cbn; [by rewrite decide_True|done].
Qed.

Lemma accesses_ids w i t j m' t' tr : threads (w_sys w) !! i = Some t -> undefined (w_sys w) = false ->
  (forall a, a ∈ ids t -> (i, (a, Init)) ∈ tr) ->
  thread_step (seen w i t j) t = Some (m', t') -> sequence (seen w i t j) = sequence (mem (w_sys w)) ->
  forall a, a ∈ ids t' -> (i, (a, Init)) ∈ tr ++ weak_accesses w (i, j).
Proof.
  intros Ht Hu Hi Hs Hq a Ha. destruct (step_ids query min checks _ _ _ _ Hs a Ha) as [Ho|[-> Hp]].
  - apply elem_of_app. left. auto.
  - apply elem_of_app. right. unfold WeakClusterer.weak_accesses. cbn [fst snd]. rewrite Hu, Ht.
    apply elem_of_list_fmap. eexists (_, Init). split; [reflexivity|]. by apply accesses_init.
Qed.
Lemma seen_sequence w i t j : sequence (seen w i t j) = sequence (mem (w_sys w)).
Proof.
  unfold seen. destruct (old_value w i t j) as [[p v]|]; [done|]. destruct (old_state t j) as [c|]; [|done].
  by destruct (boxes (mem (w_sys w)) !! c).
Qed.

Lemma weak_thread_some w i t j m' t' : weak_thread_step w i t j = Some (m', t') ->
  exists m1, thread_step (seen w i t j) t = Some (m1, t').
Proof.
  unfold WeakClusterer.weak_thread_step. destruct (thread_step (seen w i t j) t) as [[m1 t1]|]; [|done].
  cbn. intros [= _ <-]. eauto.
Qed.

(** Class A. *)
Lemma rf_none w tr i t ch j m' t' : inv query m0 chunks (w_sys w) -> rf w tr ->
  threads (w_sys w) !! i = Some t -> chunks !! i = Some ch ->
  weak_thread_step w i t j = Some (m', t') -> looks_at t = None -> writes_cell t = None ->
  cells m' = cells (mem (w_sys w)) ->
  (forall a, a ∉ ids t -> (a <= sequence (mem (w_sys w)))%N -> boxes m' !! a = boxes (mem (w_sys w)) !! a) ->
  (let w' := Weak (System m' (<[i := t']> (threads (w_sys w))) false) (past w) (views w) in
   thread_rf w' (tr ++ weak_accesses w (i, j)) i ch t') ->
  rf (weak_step w (i, j)) (tr ++ weak_accesses w (i, j)).
Proof.
  intros HI HR Ht Hch Hs Hl Hw Hc Hb Hrf. rewrite (step_none w i t j m' t') by (done || apply HR).
  destruct (weak_thread_some _ _ _ _ _ _ Hs) as [m1 Hs1].
  eapply (finish w tr _ _ i t m' t' ch); try done.
  - intros e He. apply elem_of_app. by left.
  - intros x c Hx. by rewrite Hc.
  - apply (accesses_ids w i t j m1 t'); [done|by apply HR|intros a Ha; by eapply HR|done|apply seen_sequence].
  - intros p. destruct (r_cell _ _ HR p) as [[E1 E2]|(E1 & E2 & c & k & E3 & E4 & E5)].
    + left. split; [done|]. cbn. by rewrite Hc.
    + right. split; [done|]. split; [done|]. exists c, k. split_and!; [cbn; by rewrite Hc|apply elem_of_app; by left|done].
  - intros x. by eapply (r_view _ _ HR).
Qed.

(** Class B. *)
Lemma rf_look w tr i t ch j m' t' p : inv query m0 chunks (w_sys w) -> rf w tr ->
  threads (w_sys w) !! i = Some t -> chunks !! i = Some ch ->
  weak_thread_step w i t j = Some (m', t') -> looks_at t = Some p ->
  cells m' = cells (mem (w_sys w)) ->
  (forall a, a ∉ ids t -> (a <= sequence (mem (w_sys w)))%N -> boxes m' !! a = boxes (mem (w_sys w)) !! a) ->
  (let w' := Weak (System m' (<[i := t']> (threads (w_sys w))) false) (past w) (set_view i p (position w i t j p) (views w)) in
   (forall x, x <> p -> view w' i x = view w i x) -> view w' i p = position w i t j p ->
   thread_rf w' (tr ++ weak_accesses w (i, j)) i ch t') ->
  rf (weak_step w (i, j)) (tr ++ weak_accesses w (i, j)).
Proof.
  intros HI HR Ht Hch Hs Hl Hc Hb Hrf. rewrite (step_look w i t j m' t' p) by (done || apply HR).
  destruct (weak_thread_some _ _ _ _ _ _ Hs) as [m1 Hs1].
  assert (Hi : i < length (views w)) by (rewrite (r_len _ _ HR); by eapply lookup_lt_Some).
  set (w' := Weak _ (past w) _) in *.
  assert (Hv : forall k x, view w' k x = if decide (k = i /\ x = p) then position w i t j p else view w k x).
  { intros k x. by apply view_set. }
  destruct (look w tr i t j p (r_cell _ _ HR p) Hl (r_view _ _ HR i t p Ht)) as (Hp1 & _ & _).
  eapply (finish w tr w' _ i t m' t' ch); try done.
  - unfold w', set_view. cbn. by rewrite alter_length.
  - intros e He. apply elem_of_app. by left.
  - intros x c Hx. by rewrite Hc.
  - intros k x Hk. rewrite Hv. by rewrite decide_False by naive_solver.
  - apply (accesses_ids w i t j m1 t'); [done|by apply HR|intros a Ha; by eapply HR|done|apply seen_sequence].
  - intros q. destruct (r_cell _ _ HR q) as [[E1 E2]|(E1 & E2 & c & k & E3 & E4 & E5)].
    + left. split; [done|]. cbn. by rewrite Hc.
    + right. split; [done|]. split; [done|]. exists c, k. split_and!; [cbn; by rewrite Hc|apply elem_of_app; by left|].
      rewrite Hv. destruct (decide (k = i /\ q = p)) as [[-> ->]|]; [|done].
      rewrite E1 in Hp1. cbn in Hp1. lia.
  - intros x. rewrite Hv. change (earlier w' x) with (earlier w x). destruct (decide (i = i /\ x = p)) as [[_ ->]|]; [lia|].
    by eapply (r_view _ _ HR).
  - apply Hrf.
    + intros x Hx. rewrite Hv. by rewrite decide_False by naive_solver.
    + rewrite Hv. by rewrite decide_True.
Qed.

Lemma weak_pure w i t j t' : thread_step (seen w i t j) t = Some (seen w i t j, t') ->
  weak_thread_step w i t j = Some (mem (w_sys w), t').
Proof.
  intros Hs. unfold WeakClusterer.weak_thread_step. rewrite Hs. cbn [mbind option_bind fst snd]. f_equal. f_equal.
  unfold seen. destruct (old_value w i t j) as [[p v]|]; [cbn; by destruct (mem (w_sys w))|].
  by destruct (old_state t j).
Qed.
Lemma weak_plain w i t j m' t' : looks_at t = None -> old_state t j = None ->
  thread_step (mem (w_sys w)) t = Some (m', t') -> weak_thread_step w i t j = Some (m', t').
Proof.
  intros Hl Ho Hs. rewrite weak_newest; [done| |done]. unfold old_value. by rewrite Hl.
Qed.
Lemma seen_cell w i t j p : looks_at t = Some p ->
  cells (seen w i t j) !! p = match old_value w i t j with Some (_, v) => v | None => cells (mem (w_sys w)) !! p end.
Proof.
  intros Hl. unfold seen. destruct (old_value w i t j) as [[q v]|] eqn:E.
  - apply old_value_looks in E as (E & _). rewrite Hl in E. injection E as <-. cbn. by rewrite lookup_partial_alter.
  - by rewrite (looks_old_state t j p Hl).
Qed.
Lemma weak_unwind w i t j p : looks_at t = Some p -> thread_step (seen w i t j) t = Some (unwind t (seen w i t j)) ->
  exists m', weak_thread_step w i t j = Some (m', Thread Panicked (todo t) []) /\ cells m' = cells (mem (w_sys w)) /\
    forall a, a ∉ ids t -> boxes m' !! a = boxes (mem (w_sys w)) !! a.
Proof.
  intros Hl Hs. unfold WeakClusterer.weak_thread_step. rewrite Hs. unfold unwind. cbn [mbind option_bind fst snd].
  destruct (drop_boxes_eq (clusters t) (seen w i t j)) as (E1 & E2 & E3).
  assert (Hb : boxes (seen w i t j) = boxes (mem (w_sys w))).
  { unfold seen. rewrite (looks_old_state t j p Hl). by destruct (old_value w i t j) as [[]|]. }
  assert (Hbx : forall a, a ∉ ids t -> boxes (foldr (fun y : N * list P => drop_box y.1) (seen w i t j) (clusters t)) !! a = boxes (mem (w_sys w)) !! a).
  { intros a Ha. rewrite <- Hb. apply E3. intros Hin. apply Ha. unfold ids. apply elem_of_app. by left. }
  eexists. split; [reflexivity|]. rewrite (looks_old_state t j p Hl).
  destruct (old_value w i t j) as [[q v]|] eqn:E; cbn [cells boxes]; [split; done|].
  split; [|done]. rewrite E1. unfold seen. by rewrite E, (looks_old_state t j p Hl).
Qed.

Lemma pend_view w w' i l : (forall x, x ∈ l -> view w' i x = view w i x) -> pend w i l -> pend w' i l.
Proof. intros Hv [H1 H2]. split; [done|]. intros x Hx. rewrite Hv by done. auto. Qed.

(** The whole step. *)
Lemma rf_step w tr i j : inv query m0 chunks (w_sys w) -> rf w tr ->
  (forall c, ~ races (tr ++ weak_accesses w (i, j)) c) ->
  rf (weak_step w (i, j)) (tr ++ weak_accesses w (i, j)).
Proof.
  intros HI HR Hno. pose proof (r_def _ _ HR) as Hu.
  destruct (threads (w_sys w) !! i) as [t|] eqn:Ht.
  2: { unfold WeakClusterer.weak_step, WeakClusterer.weak_accesses. cbn [fst snd]. rewrite Hu, Ht, app_nil_r. done. }
  destruct (lookup_lt_is_Some_2 chunks i) as [ch Hch].
  { rewrite <- (i_len _ _ _ _ HI). by eapply lookup_lt_Some. }
  pose proof (i_thread _ _ _ _ HI i t ch Ht Hch) as Hok.
  pose proof (r_thread _ _ HR i t ch Ht Hch) as HT. destruct HT as [Q1 Q2 Q3].
  set (m := mem (w_sys w)) in *. set (tr' := tr ++ weak_accesses w (i, j)) in *.
  (* the clusters and visited parts for steps that keep the cells *)
  assert (Hlook : forall p, looks_at t = Some p ->
    (cells (seen w i t j) !! p = None -> cells m0 !! p = None /\ position w i t j p = 0) /\
    (forall c, cells (seen w i t j) !! p = Some c -> cells m !! p = Some c)).
  { intros p Hl. destruct (look w tr i t j p (r_cell _ _ HR p) Hl (r_view _ _ HR i t p Ht)) as (_ & H1 & H2).
    rewrite (seen_cell w i t j p Hl). auto. }
  destruct t as [x td cl]. cbn [at_pc todo clusters] in *.
  destruct x as [|qs acc|pts|a own rest k|a own pending k|a own rest k|a own p rest k c
    |a own p rest k c|a own p rest k c|a own p rest k c|a own|a own| |]; cbn [pc_rf] in Q1; try done.
  - (* Next *)
    destruct Q3 as [[]|(o & Ho & Hv)]. unfold seed_ok in Ho. cbn in Ho. subst o. cbn in Hv.
    destruct td as [|p td].
    { eapply (rf_none w tr i _ ch j m (Thread Done [] cl)); try done; [by apply weak_pure|]. cbn zeta. split; [done|done|]. right. exists None. done. }
    destruct (Hlook p eq_refl) as [H1 H2].
    destruct (cells (seen w i _ j) !! p) as [c|] eqn:Ec; [|destruct (query p) as [found|] eqn:Eq].
    + eapply (rf_look w tr i _ ch j m (Thread Next td cl) p); try done.
      { apply weak_pure. unfold ParallelClusterer.thread_step. cbn [at_pc todo clusters]. by rewrite Ec. }
      cbn zeta. intros _ _. split; [done|done|]. right. exists None. split; [done|]. cbn. intros q Hq.
      destruct (Hv q Hq) as [[->|?]%elem_of_cons|[?|?]]; auto. right. left. left. exists c. by apply H2.
    + eapply (rf_look w tr i _ ch j m (Thread (Filter found []) td cl) p); try done.
      { apply weak_pure. unfold ParallelClusterer.thread_step. cbn [at_pc todo clusters]. by rewrite Ec, Eq. }
      cbn zeta. intros _ _. split; [|done|].
      * cbn. split; [by eapply Hnd|]. split; [constructor|]. by intros q ?%elem_of_nil.
      * right. exists (Some p). split.
        -- exists p, found, []. split_and!; try done. by intros q ?%elem_of_nil.
        -- cbn. intros q Hq. destruct (Hv q Hq) as [[->|?]%elem_of_cons|[?|?]]; auto; done.
    + destruct (weak_unwind w i (Thread Next (p :: td) cl) j p) as (m' & Hs & Hc & Hb); [done| |].
      { unfold ParallelClusterer.thread_step. cbn [at_pc todo clusters]. by rewrite Ec, Eq. }
      eapply (rf_look w tr i _ ch j m' _ p); try done; [by auto|].
      cbn zeta. intros _ _. split; cbn.
      * exists ch, p. split_and!; [done| |done]. apply (t_todo _ _ _ _ Hok). left.
      * by intros a own ?%elem_of_nil.
      * by left.
  - (* Filter *)
    destruct Q1 as [Hn Hp]. destruct Q3 as [[]|(o & (p & found & pre & -> & Hf & Hpre & Ha) & Hv)]. cbn in Hv.
    destruct qs as [|q qs].
    + rewrite app_nil_r in *. subst pre. destruct (min <=? length acc) eqn:Em.
      * eapply (rf_none w tr i _ ch j m (Thread (Alloc acc) td cl)); try done.
        { apply weak_pure. unfold ParallelClusterer.thread_step. cbn [at_pc todo clusters]. by rewrite Em. }
        cbn zeta. split; [|done|]; cbn. { split; [done|]. by apply Nat.leb_le. }
        right. exists (Some p). split; [by exists p, found|done].
      * eapply (rf_none w tr i _ ch j m (Thread Next td cl)); try done.
        { apply weak_pure. unfold ParallelClusterer.thread_step. cbn [at_pc todo clusters]. by rewrite Em. }
        cbn zeta. split; [done|done|]; cbn.
        right. exists None. split; [done|]. cbn. intros y Hy. destruct (Hv y Hy) as [?|[?|[= <-]]]; auto. right. left. right.
        exists found. split; [done|]. right. apply Nat.leb_gt in Em. eapply Nat.le_lt_trans; [|exact Em].
        apply submseteq_length, NoDup_submseteq; [apply NoDup_filter; by eapply Hnd|].
        intros z [Hz Hin]%elem_of_list_filter. destruct (Ha z Hin) as [?|[c Hc]]; [done|]. cbn in Hz. congruence.
    + destruct (Hlook q eq_refl) as [H1 H2].
      destruct (cells (seen w i _ j) !! q) as [c|] eqn:Ec.
      * eapply (rf_look w tr i _ ch j m (Thread (Filter qs acc) td cl) q); try done.
        { apply weak_pure. unfold ParallelClusterer.thread_step. cbn [at_pc todo clusters]. by rewrite Ec. }
        cbn zeta. intros Hv1 Hv2. split; [|done|].
        -- cbn. split.
           ++ eapply sublist_NoDup; [exact Hn|]. apply sublist_app; [done|]. by apply sublist_cons.
           ++ eapply pend_view; [|exact Hp]. intros y Hy. apply Hv1. intros ->.
              apply NoDup_app in Hn as (_ & Hn & _). apply (Hn q Hy). left.
        -- right. exists (Some p). split; [|done]. exists p, found, (pre ++ [q]). split_and!; try done.
           { by rewrite <- app_assoc. }
           intros y [Hy| ->%elem_of_list_singleton]%elem_of_app; [by apply Ha|]. right. exists c. by apply H2.
      * destruct (H1 eq_refl) as [Hm0 Hpos].
        eapply (rf_look w tr i _ ch j m (Thread (Filter qs (acc ++ [q])) td cl) q); try done.
        { apply weak_pure. unfold ParallelClusterer.thread_step. cbn [at_pc todo clusters]. by rewrite Ec. }
        cbn zeta. intros Hv1 Hv2. split; [|done|].
        -- cbn. rewrite <- app_assoc. split; [done|]. destruct Hp as [Hp1 Hp2].
           assert (Hq : q ∉ acc). { intros Hy. apply NoDup_app in Hn as (_ & Hn & _). apply (Hn q Hy). left. }
           split.
           ++ apply NoDup_app. split_and!; [done| |apply NoDup_singleton]. intros y Hy ->%elem_of_list_singleton. done.
           ++ intros y [Hy| ->%elem_of_list_singleton]%elem_of_app; [|by rewrite Hv2].
              rewrite Hv1; [by apply Hp2|]. by intros ->.
        -- right. exists (Some p). split; [|done]. exists p, found, (pre ++ [q]). split_and!; try done.
           { by rewrite <- app_assoc. }
           intros y [Hy| ->%elem_of_list_singleton]%elem_of_app; [|left; set_solver].
           destruct (Ha y Hy); [left; set_solver|by right].
  - (* Alloc *)
    destruct Q1 as [Hp Hm]. destruct Q3 as [[]|(o & (p & found & -> & Hf & Ha) & Hv)]. cbn in Hv.
    eapply (rf_none w tr i _ ch j (Memory (cells m) (<[(sequence m + 1)%N := Box 0 false]> (boxes m)) (sequence m + 1)%N)
      (Thread (Check (sequence m + 1)%N [] pts 0) td cl)); try done.
    { apply weak_plain; [done|by destruct j|]. unfold ParallelClusterer.thread_step. cbn [at_pc todo clusters]. reflexivity. }
    { intros b Hb Hle. cbn. rewrite lookup_insert_ne; [done|]. unfold m. lia. }
    cbn zeta. split; [|done|]; cbn.
    + split; [done|]. split; [split; [constructor|by intros y ?%elem_of_nil]|]. split; [done|]. by rewrite lookup_insert.
    + right. exists (Some p). split; [|done]. by exists p, found.
  - (* Check *)
    destruct Q1 as (Hp & Hc & Hm & Hb). destruct Q3 as [[]|(o & (p & found & -> & Hf & Ha) & Hv)]. cbn in Hv.
    destruct rest as [|q rest].
    + eapply (rf_none w tr i _ ch j m (Thread (Commit a own) td cl)); try done.
      { by apply weak_pure. }
      cbn zeta. split; [|done|]; cbn.
      * split; [done|]. split; [cbn in Hm; lia|done].
      * right. exists (Some p). split; [|done]. exists p, found. rewrite app_nil_r in Ha. done.
    + eapply (rf_none w tr i _ ch j m (Thread (Assign a own (q :: rest) k) td cl)); try done.
      { apply weak_pure. unfold ParallelClusterer.thread_step. cbn [at_pc todo clusters].
        assert (E : is_rolled_back (seen w i (Thread (Check a own (q :: rest) k) td cl) j) a = Some false).
        { unfold seen, old_value, old_state. cbn [looks_at at_pc mbind option_bind].
          unfold is_rolled_back, deref. destruct (j =? 0); rewrite Hb; cbn; [|done].
          by rewrite lookup_insert. }
        by rewrite E. }
      cbn zeta. split; [by auto|done|]. right. exists (Some p). split; [|done]. by exists p, found.
  - (* Assign *)
    destruct Q1 as (Hp & Hc & Hm & Hb). destruct Q3 as [[]|(o & (p & found & -> & Hf & Ha) & Hv)]. cbn in Hv.
    destruct rest as [|q rest].
    { eapply (rf_none w tr i _ ch j m (Thread (Commit a own) td cl)); try done.
      { by apply weak_pure. }
      cbn zeta. split; [|done|]; cbn.
      - split; [done|]. split; [cbn in Hm; lia|done].
      - right. exists (Some p). split; [|done]. exists p, found. rewrite app_nil_r in Ha. done. }
    destruct Hp as [Hp1 Hp2]. destruct (Hp2 q) as [Hq1 Hq2]; [left|]. apply NoDup_cons in Hp1 as [Hqn Hp1].
    set (t := Thread (Assign a own (q :: rest) k) td cl) in *.
    assert (Eo : old_value w i t j = None).
    { destruct (old_value w i t j) as [[q' v]|] eqn:E; [|done].
      assert (q' = q) as -> by (apply old_value_looks in E as (E & _); by injection E).
      destruct (old_null w tr i t j q v (r_cell _ _ HR q) E) as (_ & _ & _ & _ & _ & Hx). done. }
    assert (Est : weak_thread_step w i t j = thread_step m t).
    { apply weak_newest; [done|]. by apply (looks_old_state t j q). }
    destruct (cells m !! q) as [c|] eqn:Ec.
    + (* lost *)
      assert (Hs : weak_thread_step w i t j = Some (m, Thread (Conflict1 a own q rest k c) td cl)).
      { rewrite Est. unfold t, ParallelClusterer.thread_step. cbn [at_pc todo clusters]. unfold assign_cluster. by rewrite Ec. }
      eapply (rf_look w tr i t ch j m _ q); try done.
      cbn zeta. intros _ _. split; [|done|by left]. cbn.
      destruct (r_cell _ _ HR q) as [[_ E]|(_ & _ & c' & i' & E1 & E2 & E3)]; [unfold m in *; congruence|].
      exists i'. unfold m in Ec. rewrite Ec in E1. injection E1 as <-. split; [|apply elem_of_app; by left]. intros ->. lia.
    + (* won *)
      set (m' := set_cells (<[q := a]> (cells m)) m). set (t' := Thread (Check a (own ++ [q]) rest (k + 1)) td cl).
      assert (Hs : weak_thread_step w i t j = Some (m', t')).
      { rewrite Est. unfold t, ParallelClusterer.thread_step. cbn [at_pc todo clusters]. unfold assign_cluster. by rewrite Ec. }
      assert (Hear : earlier w q = []).
      { destruct (r_cell _ _ HR q) as [[E _]|(_ & _ & c' & i' & E1 & _)]; [done|unfold m in *; congruence]. }
      assert (Hstep : weak_step w (i, j) = Weak (System m' (<[i := t']> (threads (w_sys w))) false)
          (<[q := [None]]> (past w)) (set_view i q 1 (views w))).
      { unfold WeakClusterer.weak_step. rewrite Hu, Ht, Hs. unfold changed. cbn [writes_cell at_pc t head mbind option_bind].
        rewrite decide_False; [by rewrite Hear; fold m; rewrite Ec|].
        fold m. rewrite Ec. cbn. by rewrite lookup_insert. }
      rewrite Hstep. set (w' := Weak _ _ _).
      assert (Hi : i < length (views w)) by (rewrite (r_len _ _ HR); by eapply lookup_lt_Some).
      assert (Hvw : forall k x, view w' k x = if decide (k = i /\ x = q) then 1 else view w k x).
      { intros k' y. by apply view_set. }
      assert (Hew : forall x, earlier w' x = if decide (x = q) then [None] else earlier w x).
      { intros y. unfold earlier, w'. cbn [past]. destruct (decide (y = q)) as [->|Hy];
          [by rewrite lookup_insert|by rewrite lookup_insert_ne]. }
      assert (Hg : grows m m').
      { intros y b Hy. cbn. rewrite lookup_insert_ne; [done|]. intros ->. congruence. }
      assert (Hinit : (i, (a, Init)) ∈ tr).
      { apply (r_init _ _ HR i t a Ht). by apply owner_ids. }
      eapply (finish w tr w' tr' i t m' t' ch); try done.
      * unfold w', set_view. cbn. by rewrite alter_length.
      * intros e He. apply elem_of_app. by left.
      * intros k' y Hk. rewrite Hvw. by rewrite decide_False by naive_solver.
      * intros b Hb'. apply elem_of_app. left. apply (r_init _ _ HR i t b Ht). by apply ids_elem, ids_elem in Hb'.
      * intros y. unfold cell_rf. rewrite Hew. destruct (decide (y = q)) as [->|Hy].
        -- right. split; [done|]. split; [done|]. exists a, i. split_and!; [cbn; by rewrite lookup_insert|apply elem_of_app; by left|].
           rewrite Hvw. by rewrite decide_True.
        -- assert (Ecy : cells (mem (w_sys w')) !! y = cells m !! y) by (cbn; by rewrite lookup_insert_ne).
           rewrite Ecy. destruct (r_cell _ _ HR y) as [?|(E1 & E2 & c & k' & E3 & E4 & E5)]; [by left|right].
           split; [done|]. split; [done|]. exists c, k'. split_and!; [done|apply elem_of_app; by left|].
           rewrite Hvw. by rewrite decide_False by naive_solver.
      * intros y. rewrite Hvw, Hew. destruct (decide (y = q)) as [->|Hy].
        -- rewrite decide_True by done. done.
        -- rewrite decide_False by naive_solver. by apply (r_view _ _ HR i t).
      * intros y. rewrite Hew. destruct (decide (y = q)) as [->|Hy]; [rewrite Hear; cbn; lia|done].
      * split.
        -- cbn. split_and!.
           ++ split; [done|]. intros y Hy. rewrite Hvw. rewrite decide_False by (intros [_ ->]; done).
              apply Hp2. by right.
           ++ destruct Hc as [Hc1 Hc2]. split.
              ** apply NoDup_app. split_and!; [done| |apply NoDup_singleton].
                 intros y Hy ->%elem_of_list_singleton. destruct (Hc2 q Hy) as [_ E]. unfold m in Ec; congruence.
              ** intros y [Hy| ->%elem_of_list_singleton]%elem_of_app.
                 --- destruct (Hc2 y Hy) as [? ?]. split; [done|]. by apply Hg.
                 --- split; [done|]. cbn. by rewrite lookup_insert.
           ++ rewrite app_length. cbn [length] in *. lia.
           ++ done.
        -- cbn [clusters t']. intros b own' Hin. destruct (Q2 b own' Hin) as [? ?]. split; [done|]. by eapply claimed_grows.
        -- apply (visited_grows m); [done|]. right. exists (Some p). split; [|done]. exists p, found. rewrite <- app_assoc. done.
  - (* Conflict1 *)
    exfalso. destruct Q1 as (k' & Hk & Hin). apply (Hno c). exists k', i, Init, Use.
    split; [apply elem_of_app; by left|]. split; [|by auto]. apply elem_of_app. right.
    unfold WeakClusterer.weak_accesses. cbn [fst snd]. rewrite Hu, Ht. apply elem_of_list_fmap. exists (c, Use). split; [done|].
    cbn. left.
  - (* Commit *)
    destruct Q1 as (Hc & Hm & Hb). destruct Q3 as [[]|(o & (p & found & -> & Hf & Ha) & Hv)]. cbn in Hv.
    eapply (rf_none w tr i _ ch j (set_box a (Box 1 false) m) (Thread Next td (cl ++ [(a, own)]))); try done.
    { apply weak_plain; [done|by destruct j|]. unfold ParallelClusterer.thread_step. cbn [at_pc todo clusters].
      unfold commit, set_state_from_new, deref. rewrite Hb. done. }
    { intros b Hb' _. cbn. rewrite lookup_insert_ne; [done|]. intros ->. apply Hb'. by apply owner_ids. }
    cbn zeta. split; [done| |].
    + cbn. intros b own' [Hin|Hin]%elem_of_app; [by apply Q2|]. apply elem_of_list_singleton in Hin as [= -> ->]. done.
    + right. exists None. split; [done|]. cbn. intros y Hy. destruct (Hv y Hy) as [?|[?|[= <-]]]; auto.
      right. left. right. exists found. split; [done|]. left.
      assert (E : forall z, z ∈ found -> is_Some (cells m !! z)).
      { intros z Hz. destruct (Ha z Hz) as [Hz'|?]; [|done]. destruct Hc as [_ Hc]. destruct (Hc z Hz') as [_ E]. eauto. }
      clear -E. cbn. induction found as [|z found IH]; [done|]. rewrite filter_cons.
      destruct (E z) as [b Hz]; [left|]. rewrite decide_False by (by rewrite Hz).
      apply IH. intros y Hy. apply E. by right.
  - (* Done *)
    eapply (rf_none w tr i _ ch j m (Thread Done td cl)); try done.
    by apply weak_pure.
  - (* Panicked *)
    eapply (rf_none w tr i _ ch j m (Thread Panicked td cl)); try done.
    by apply weak_pure.
Qed.

(** ** Executions *)
Notation s0 := (System m0 (cluster_slice_start query <$> chunks) false).

Lemma rf_start : rf (weak_start s0) [].
Proof.
  assert (Hv : forall i x, view (weak_start s0) i x = 0).
  { intros i x. unfold view, weak_start. cbn [views].
    destruct (replicate (length (threads s0)) (∅ : gmap P nat) !! i) as [v|] eqn:E; cbn [default].
    - apply lookup_replicate in E as [-> _]. change (default 0 ((∅ : gmap P nat) !! x) = 0). by rewrite lookup_empty.
    - change (default 0 ((∅ : gmap P nat) !! x) = 0). by rewrite lookup_empty. }
  assert (He : forall x, earlier (weak_start s0) x = []).
  { intros x. unfold earlier, weak_start. cbn [past]. by rewrite lookup_empty. }
  assert (Ht : forall i t, threads s0 !! i = Some t -> exists ch, chunks !! i = Some ch /\ clusters t = [] /\
    ((at_pc t = Next /\ todo t ≡ₚ ch) \/ (at_pc t = Panicked /\ exists p, p ∈ ch /\ query p = None))).
  { intros i t Hi. cbn [threads] in Hi. rewrite list_lookup_fmap in Hi. destruct (chunks !! i) as [ch|]; [|done]. injection Hi as <-.
    exists ch. split; [done|]. unfold cluster_slice_start.
    destruct (sort_by_most_number_of_similar_points query ch) as [l|] eqn:E; cbn; (split; [done|]).
    - left. split; [done|]. by eapply sort_perm.
    - right. split; [done|]. unfold sort_by_most_number_of_similar_points in E.
      destruct (mapM query ch) as [l|] eqn:Em; [done|]. clear -Em.
      apply mapM_None_1, Exists_exists in Em as (p & Hp & Hq). eauto. }
  split; cbn [w_sys weak_start].
  - done.
  - unfold weak_start. cbn [views]. by rewrite replicate_length.
  - intros i t a Hi Ha. destruct (Ht i t Hi) as (ch & _ & Hc & Hx). apply ids_elem in Ha as [[own Ha]|Ha].
    + rewrite Hc in Ha. by apply elem_of_nil in Ha.
    + destruct Hx as [[Hx _]|[Hx _]]; by rewrite Hx in Ha.
  - intros p. left. by rewrite He.
  - intros i t ch Hi Hch. destruct (Ht i t Hi) as (ch' & Hch' & Hc & Hx). rewrite Hch in Hch'. injection Hch' as <-. split.
    + destruct Hx as [[Hx _]|[Hx (p & Hp & Hq)]]; rewrite Hx; [done|]. by exists ch, p.
    + intros a own Ha. rewrite Hc in Ha. by apply elem_of_nil in Ha.
    + destruct Hx as [[Hx Hp]|[Hx _]]; [right|left; unfold stuck; by rewrite Hx].
      exists None. split; [unfold seed_ok; by rewrite Hx|]. intros p Hin. left. by rewrite Hp.
  - intros i t x _. rewrite Hv. lia.
Qed.

Lemma races_mono tr1 tr2 c : races tr1 c -> races (tr1 ++ tr2) c.
Proof.
  intros (i & j & x & y & Hi & Hj & Hr). exists i, j, x, y. rewrite !elem_of_app. auto.
Qed.

Lemma rf_run w tr l : good_start m0 -> inv query m0 chunks (w_sys w) -> rf w tr ->
  (forall c, ~ races (tr ++ weak_trace w l) c) ->
  inv query m0 chunks (w_sys (weak_run w l)) /\ rf (weak_run w l) (tr ++ weak_trace w l).
Proof.
  intros Hg. revert w tr. induction l as [|[i j] l IH]; intros w tr HI HR Hno; [by rewrite app_nil_r|].
  cbn [WeakClusterer.weak_trace] in *. rewrite app_assoc in *.
  assert (HR' : rf (weak_step w (i, j)) (tr ++ weak_accesses w (i, j))).
  { apply rf_step; [done|done|]. intros c Hc. by apply (Hno c), races_mono. }
  apply IH; [|done|done]. apply weak_step_inv; [done|done|]. by apply HR'.
Qed.
End Inv.

(** ** C56 *)
Lemma weak_run_bound w l i t :
  threads (w_sys w) !! i = Some t -> undefined (w_sys (weak_run w l)) = false ->
  exists t', threads (w_sys (weak_run w l)) !! i = Some t' /\
    thread_bound query t' <= thread_bound query t - length (filter (fun j => j = i) l.*1).
Proof.
  revert w t. induction l as [|[k j] l IH]; intros w t Ht Hu.
  - exists t. split; [done|]. cbn. lia.
  - change (weak_run w ((k, j) :: l)) with (weak_run (weak_step w (k, j)) l) in *.
    rewrite fmap_cons, filter_cons. cbn [fst].
    destruct (undefined (w_sys (weak_step w (k, j)))) eqn:Eu'.
    { rewrite weak_undefined in Hu by done. congruence. }
    pose proof (weak_step_sys query min checks w k j) as E. destruct (undefined (w_sys w)) eqn:Eu.
    { rewrite E in Eu'. congruence. }
    destruct (decide (k = i)) as [->|Hne].
    + rewrite Ht in E. destruct (weak_thread_step w i t j) as [[m' t']|] eqn:Es; [|rewrite E in Eu'; done].
      destruct (weak_thread_some _ _ _ _ _ _ Es) as [m1 Hs]. apply step_bound in Hs.
      destruct (IH (weak_step w (i, j)) t') as (t'' & H1 & H2).
      { rewrite E. cbn. apply list_lookup_insert. by eapply lookup_lt_Some. }
      { done. }
      exists t''. split; [done|]. cbn [length]. lia.
    + apply IH; [|done]. rewrite E. destruct (threads (w_sys w) !! k) as [u|]; [|done].
      destruct (weak_thread_step w k u j) as [[m' u']|]; [|done]. cbn. by rewrite list_lookup_insert_ne.
Qed.

Lemma weak_wait_free (m0 : memory) (chunks : list (list P)) (l : list (nat * nat)) (i : nat) (ch : list P) :
  let visit p := let n := match query p with Some found => length found | None => 0 end in
                 n * (n + 10) + 2 * n + 9 in
  let s := w_sys (weak_run (weak_start (System m0 (cluster_slice_start query <$> chunks) false)) l) in
  chunks !! i = Some ch ->
  2 + sum_list (visit <$> ch) <= length (filter (fun j => j = i) l.*1) ->
  undefined s = true \/ exists t, threads s !! i = Some t /\ (at_pc t = Done \/ at_pc t = Panicked).
Proof.
  intros visit s Hch Hlen. destruct (undefined s) eqn:Eu; [by left|right].
  destruct (weak_run_bound (weak_start (System m0 (cluster_slice_start query <$> chunks) false)) l i
    (cluster_slice_start query ch)) as (t & Ht & Hb); [|done|].
  { cbn. by rewrite list_lookup_fmap, Hch. }
  exists t. split; [done|]. pose proof (start_bound query ch) as Hs. cbn zeta in Hs.
  unfold thread_bound at 1 in Hb. unfold visit in *.
  destruct (at_pc t) eqn:Et; cbn [stopped] in Hb; auto; pose proof (bound_pos query (todo t)); lia.
Qed.

(** ** The guarantees without races *)
Lemma race_free_guarantees (m0 : memory) (chunks : list (list P)) :
  (forall p a, cells m0 !! p = Some a -> (a <= sequence m0)%N /\ boxes m0 !! a = Some (Box COMMITTED false)) ->
  forall l, let start := weak_start (System m0 (cluster_slice_start query <$> chunks) false) in
  (forall c, ~ races (weak_trace start l) c) ->
  let s := w_sys (weak_run start l) in
  undefined s = false /\
  (forall i t ch, threads s !! i = Some t -> chunks !! i = Some ch -> at_pc t = Panicked ->
    exists p, p ∈ ch /\ query p = None) /\
  NoDup (concat (concat (clusters <$> threads s)).*2) /\
  (forall i t a own, threads s !! i = Some t -> (a, own) ∈ clusters t ->
    min <= length own /\ forall x, x ∈ own -> cells m0 !! x = None /\ cells (mem s) !! x = Some a) /\
  (forall cs, result s = Some cs -> forall ch p, ch ∈ chunks -> p ∈ ch ->
    is_Some (cells (mem s) !! p) \/ exists found, query p = Some found /\
      (filter (fun x => cells (mem s) !! x = None) found = [] \/
       length (filter (fun x => cells (mem s) !! x = None) found) < min)).
Proof.
  intros Hst l start Hno s.
  destruct (rf_run m0 chunks start [] l) as [HI HR]; [by constructor|apply start_inv|apply rf_start|done|].
  cbn [app] in HR. fold s in HI.
  assert (Hch : forall i t, threads s !! i = Some t -> exists ch, chunks !! i = Some ch).
  { intros i t Ht. apply lookup_lt_is_Some_2. rewrite <- (i_len _ _ _ _ HI). by eapply lookup_lt_Some. }
  assert (Hcl : forall i t a own, threads s !! i = Some t -> (a, own) ∈ clusters t ->
    min <= length own /\ claimed m0 (mem s) a own).
  { intros i t a own Ht Hin. destruct (Hch i t Ht) as [ch Hc]. by apply (q_clusters _ _ _ _ _ _ _ (r_thread _ _ _ _ HR i t ch Ht Hc)). }
  split; [apply HR|]. split_and!.
  - intros i t ch Ht Hc Hp. pose proof (q_pc _ _ _ _ _ _ _ (r_thread _ _ _ _ HR i t ch Ht Hc)) as Q. rewrite Hp in Q.
    destruct Q as (ch' & p & Hc' & Hin & Hq). rewrite Hc in Hc'. injection Hc' as <-. eauto.
  - set (cs := concat (clusters <$> threads s)).
    assert (Hall : forall a own, (a, own) ∈ cs -> claimed m0 (mem s) a own).
    { intros a own Hin. apply elem_of_list_In, in_concat in Hin as (k & Hk%elem_of_list_In & Hin%elem_of_list_In).
      apply elem_of_list_fmap in Hk as (t & -> & Ht). apply elem_of_list_lookup in Ht as [i Ht]. by apply (Hcl i t). }
    pose proof (inv_nodup query m0 chunks s HI) as Hn. fold cs in Hn.
    clearbody cs. clear -Hall Hn. induction cs as [|[a own] cs IH]; [constructor|].
    cbn in Hn. apply NoDup_cons in Hn as [Ha Hn]. rewrite fmap_cons. cbn [concat snd]. apply NoDup_app. split_and!.
    + apply (Hall a own). left.
    + intros x Hx Hin. apply elem_of_list_In, in_concat in Hin as (k & Hk%elem_of_list_In & Hxk%elem_of_list_In).
      apply elem_of_list_fmap in Hk as ([b own'] & -> & Hk). cbn in Hxk.
      destruct (Hall a own ltac:(left)) as [_ H1]. destruct (Hall b own' ltac:(by right)) as [_ H2].
      destruct (H1 x Hx) as [_ E1]. destruct (H2 x Hxk) as [_ E2]. rewrite E1 in E2. injection E2 as <-.
      apply Ha. apply elem_of_list_fmap. by exists (a, own').
    + apply IH; [|done]. intros b own' Hin. apply Hall. by right.
  - intros i t a own Ht Hin. destruct (Hcl i t a own Ht Hin) as [Hm [_ Hc]]. done.
  - intros cs Hr ch p Hin Hp. apply elem_of_list_lookup in Hin as [i Hi].
    destruct (lookup_lt_is_Some_2 (threads s) i) as [t Ht].
    { rewrite (i_len _ _ _ _ HI). by eapply lookup_lt_Some. }
    pose proof (q_visited _ _ _ _ _ _ _ (r_thread _ _ _ _ HR i t ch Ht Hi)) as Hv. fold s in Hv.
    unfold result in Hr. destruct (forallb is_done (threads s)) eqn:Ed; [|done]. rewrite forallb_forall in Ed.
    assert (Hd : is_done t = true) by (apply Ed, elem_of_list_In, elem_of_list_lookup; eauto).
    unfold is_done in Hd. destruct (at_pc t) eqn:Et; try done.
    destruct Hv as [Hv|(o & Ho & Hv)]; [unfold stuck in Hv; by rewrite Et in Hv|].
    unfold seed_ok in Ho. rewrite Et in Ho. destruct Ho as [-> Htd]. rewrite Htd in Hv.
    destruct (Hv p Hp) as [Hn|[Hs|?]]; [by apply elem_of_nil in Hn|exact Hs|done].
Qed.
End RaceFree.
