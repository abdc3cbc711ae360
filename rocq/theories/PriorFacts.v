(** The threads of the parallel clusterer never use clusters of earlier calls. *)
From stdpp Require Import base list gmap.
From Coq Require Import NArith Lia.
From Verif Require Import ListFacts Base ParallelClusterer SpecPrior ParallelClustererFacts ParallelClustererRaces.
Local Open Scope nat_scope.

Section Facts.
Context {P : Type} `{Countable P}.
Context (query : P -> res (list P)) (min : nat) (checks : bool) (m0 : memory P).
Notation memory := (memory P).
Notation thread := (thread P).
Notation system := (system (P := P)).
Notation thread_step := (thread_step query min checks).
Notation system_step := (system_step query min checks).
Notation run_schedule := (run_schedule query min checks).
Implicit Types (m : memory) (t : thread) (s : system) (a c : N).

(** A point without a pointer at the start; an id of this call. *)
Definition open_point (p : P) : Prop := cells m0 !! p = None.
Definition new m a : Prop := (sequence m0 < a <= sequence m)%N.
Notation opens l := (Forall open_point l).

Definition pc_fresh m (x : pc P) : Prop :=
  match x with
  | Next | Done | Panicked => True
  | Filter _ acc => opens acc
  | Alloc pts => opens pts
  | Check a own rest _ | Assign a own rest _ => new m a /\ opens own /\ opens rest
  | Undo a own pending k => new m a /\ opens own /\ opens pending /\
      match k with Some (rest, _) => opens rest | None => True end
  | Conflict1 a own p rest _ c | Conflict2 a own p rest _ c
  | Conflict3 a own p rest _ c | Conflict4 a own p rest _ c =>
      new m a /\ opens own /\ open_point p /\ opens rest /\ new m c
  | Fail a own | Commit a own => new m a /\ opens own
  end.
Definition t_fresh m t : Prop := pc_fresh m (at_pc t) /\ Forall (fun x : N * list P => new m x.1) (clusters t).
Record m_fresh m : Prop := {
  f_seq : (sequence m0 <= sequence m)%N;
  f_prior : forall p a, cells m0 !! p = Some a -> cells m !! p = Some a;
  f_cells : forall p a, open_point p -> cells m !! p = Some a -> new m a;
  f_boxes : forall a, (a <= sequence m0)%N -> boxes m !! a = boxes m0 !! a;
}.
Definition alike m m' : Prop :=
  cells m = cells m' /\ sequence m = sequence m' /\ forall a, new m a -> boxes m !! a = boxes m' !! a.

Lemma t_fresh_mono m m1 t : (sequence m <= sequence m1)%N -> t_fresh m t -> t_fresh m1 t.
Proof.
  intros Hle [H1 H2]. assert (Hn : forall a, new m a -> new m1 a) by (unfold new; intros; lia). split.
  - destruct (at_pc t); cbn in *; naive_solver.
  - eapply Forall_impl; [exact H2|]. intros x. apply Hn.
Qed.

Lemma deref_alike m m' a : alike m m' -> new m a -> deref m a = deref m' a.
Proof. intros (_ & _ & E) Ha. unfold deref. by rewrite E. Qed.

(** Steps on the two memories. *)
Definition both (r r' : option (memory * thread)) (m : memory) : Prop :=
  match r, r' with
  | Some (m1, t1), Some (m1', t1') =>
      t1 = t1' /\ alike m1 m1' /\ m_fresh m1 /\ t_fresh m1 t1 /\ (sequence m <= sequence m1)%N
  | None, None => True
  | _, _ => False
  end.

Lemma both_intro m m1 m1' t1 : alike m1 m1' -> m_fresh m1 -> t_fresh m1 t1 -> (sequence m <= sequence m1)%N ->
  both (Some (m1, t1)) (Some (m1', t1)) m.
Proof. intros. by cbn. Qed.

Lemma set_box_fresh m m' a b : alike m m' -> m_fresh m -> new m a -> alike (set_box a b m) (set_box a b m') /\ m_fresh (set_box a b m).
Proof.
  intros (E1 & E2 & E3) [F1 F2 F3 F4] Ha. split.
  - split_and!; [done..|]. intros c Hc. cbn. destruct (decide (a = c)) as [->|Hne]; [by rewrite !lookup_insert|].
    rewrite !lookup_insert_ne by done. by apply E3.
  - split; [done..|]. intros c Hc. cbn. rewrite lookup_insert_ne by (unfold new in Ha; lia). by apply F4.
Qed.
Lemma drop_fresh m m' a : alike m m' -> m_fresh m -> new m a -> alike (drop_box a m) (drop_box a m') /\ m_fresh (drop_box a m).
Proof.
  intros HA HF Ha. unfold drop_box. pose proof HA as (_ & _ & E). rewrite <- (E a Ha).
  destruct (boxes m !! a) as [b|]; [|done]. by apply set_box_fresh.
Qed.
Lemma drops_fresh m m' (cl : list (N * list P)) : alike m m' -> m_fresh m -> Forall (fun x : N * list P => new m x.1) cl ->
  let f m := foldr (fun (x : N * list P) => drop_box x.1) m cl in alike (f m) (f m') /\ m_fresh (f m).
Proof.
  intros HA HF Hc. cbn zeta. induction Hc as [|x cl Hx Hc IH]; [done|]. cbn. destruct IH as [IH1 IH2].
  apply drop_fresh; [done..|]. unfold new. destruct (drop_boxes_eq cl m) as (_ & -> & _). exact Hx.
Qed.
Lemma state_fresh st a m m' : alike m m' -> m_fresh m -> new m a ->
  match set_state_from_new st a m, set_state_from_new st a m' with
  | Some (m1, ok), Some (m1', ok') => ok = ok' /\ alike m1 m1' /\ m_fresh m1 /\ sequence m1 = sequence m
  | None, None => True
  | _, _ => False
  end.
Proof.
  intros HA HF Ha. unfold set_state_from_new. rewrite <- (deref_alike m m' a HA Ha). destruct (deref m a) as [b|]; [|done]. cbn.
  destruct (state b =? 0)%N; [|done]. destruct (set_box_fresh m m' a (Box st false) HA HF Ha). done.
Qed.
Lemma cells_fresh m m' (f : gmap P N) : alike m m' -> m_fresh m ->
  (forall p a, cells m0 !! p = Some a -> f !! p = cells m !! p) ->
  (forall p a, open_point p -> f !! p = Some a -> new m a) ->
  alike (set_cells f m) (set_cells f m') /\ m_fresh (set_cells f m).
Proof.
  intros (E1 & E2 & E3) [F1 F2 F3 F4] H1 H2. split; [done|]. split; [done| |done|done].
  intros p a Hp. cbn. rewrite (H1 p a Hp). by apply F2.
Qed.

Lemma step_both m m' t : alike m m' -> m_fresh m -> t_fresh m t -> both (thread_step m t) (thread_step m' t) m.
Proof.
  intros HA HF [Hpc Hcl]. pose proof HA as (E1 & E2 & E3). pose proof HF as [F1 F2 F3 F4].
  assert (Hopen : forall p, cells m !! p = None -> open_point p).
  { intros p Hp. unfold open_point. destruct (cells m0 !! p) as [a|] eqn:E; [|done]. rewrite (F2 p a E) in Hp. done. }
  destruct t as [x td cl]. unfold ParallelClusterer.thread_step. cbn [at_pc todo clusters] in *.
  assert (Hgo : forall x td, pc_fresh m x -> both (Some (m, Thread x td cl)) (Some (m', Thread x td cl)) m).
  { intros y td' Hy. apply both_intro; [done|done|by split|lia]. }
  destruct x as [|qs acc|pts|b own rest i|b own pending k|b own rest i|b own p rest i c
    |b own p rest i c|b own p rest i c|b own p rest i c|b own|b own| |]; cbn [pc_fresh] in Hpc.
  - destruct td as [|p td]; [by apply Hgo|]. rewrite <- E1. destruct (cells m !! p); [by apply Hgo|].
    destruct (query p) as [found|]; [by apply Hgo, Forall_nil_2|].
    destruct (drops_fresh m m' cl HA HF Hcl) as [G1 G2]. unfold unwind. cbn [clusters todo].
    apply both_intro; [done|done|split; [done|by apply Forall_nil_2]|].
    destruct (drop_boxes_eq cl m) as (_ & -> & _). lia.
  - destruct qs as [|q qs]; [destruct (min <=? length acc); by apply Hgo|]. rewrite <- E1.
    destruct (cells m !! q) eqn:Eq; apply Hgo; [done|]. cbn. apply Forall_app. split; [done|]. apply Forall_singleton. by apply Hopen.
  - rewrite <- E2, <- E1. apply both_intro; [split_and!; [done..|]| |split|cbn; lia].
    + intros a Ha. cbn. destruct (decide (a = sequence m + 1)%N) as [->|Hne]; [by rewrite !lookup_insert|].
      rewrite !lookup_insert_ne by done. apply E3. unfold new in *. cbn in Ha. lia.
    + split; [cbn; lia|done| |].
      * intros p a Hp Ha. destruct (F3 p a Hp Ha). unfold new. cbn. lia.
      * intros a Ha. cbn. rewrite lookup_insert_ne by lia. by apply F4.
    + cbn [at_pc pc_fresh]. split; [unfold new; cbn [sequence]; lia|]. split; [by apply Forall_nil_2|done].
    + eapply Forall_impl; [exact Hcl|]. intros y Hy. unfold new in *. cbn. lia.
  - destruct Hpc as (P1 & P2 & P3). destruct rest as [|p rest]; [by apply Hgo|].
    unfold is_rolled_back. rewrite <- (deref_alike m m' b HA P1). destruct (deref m b) as [y|]; [|done]. cbn [mbind option_bind].
    destruct (state y =? ROLLED_BACK)%N; apply Hgo; cbn; done.
  - destruct Hpc as (P1 & P2 & P3 & P4). destruct pending as [|p pending].
    + destruct k as [[rest i]|]; [by apply Hgo|]. destruct (drop_fresh m m' b HA HF P1) as [G1 G2].
      destruct (drop_box_eq b m) as (_ & Es & _). apply both_intro; [done|done| |lia]. split; [done|]. cbn.
      eapply Forall_impl; [exact Hcl|]. intros y Hy. unfold new in *. by rewrite Es.
    + apply Forall_cons in P3 as [Pp P3]. unfold unassign. rewrite <- E1. destruct (decide (cells m !! p = Some b)); [|by apply Hgo; cbn].
      destruct (cells_fresh m m' (delete p (cells m)) HA HF) as [G1 G2].
      { intros q a Hq. apply lookup_delete_ne. intros ->. unfold open_point in Pp. congruence. }
      { intros q a Hq Ha. apply lookup_delete_Some in Ha as [_ Ha]. by apply (F3 q a). }
      apply both_intro; [done|done|by split|cbn; lia].
  - destruct Hpc as (P1 & P2 & P3). destruct rest as [|p rest]; [by apply Hgo|]. apply Forall_cons in P3 as [Pp P3].
    unfold assign_cluster. rewrite <- E1. destruct (cells m !! p) as [c|] eqn:Ec.
    + apply Hgo. cbn. split_and!; [done..|]. by apply (F3 p c).
    + destruct (cells_fresh m m' (<[p := b]> (cells m)) HA HF) as [G1 G2].
      { intros q a Hq. apply lookup_insert_ne. intros ->. unfold open_point in Pp. congruence. }
      { intros q a Hq Ha. apply lookup_insert_Some in Ha as [[-> <-]|[_ Ha]]; [done|]. by apply (F3 q a). }
      apply both_intro; [done|done| |cbn; lia]. split; [|done]. cbn. split; [done|]. split; [|done].
      apply Forall_app. split; [done|]. by apply Forall_singleton.
  - destruct Hpc as (P1 & P2 & P3 & P4 & P5). unfold is_commited. rewrite <- (deref_alike m m' c HA P5).
    destruct (deref m c) as [y|]; [|done]. cbn [mbind option_bind]. destruct (state y =? COMMITTED)%N; apply Hgo; cbn; done.
  - destruct Hpc as (P1 & P2 & P3 & P4 & P5). unfold is_rolled_back. rewrite <- (deref_alike m m' c HA P5).
    destruct (deref m c) as [y|]; [|done]. cbn [mbind option_bind]. destruct (state y =? ROLLED_BACK)%N; [|by apply Hgo; cbn].
    destruct (checks && (i =? 0))%bool; [|by apply Hgo; cbn].
    destruct (drop_fresh m m' b HA HF P1) as [G1 G2]. destruct (drop_box_eq b m) as (_ & Es & _).
    assert (Hcl' : Forall (fun x : N * list P => new (drop_box b m) x.1) cl).
    { eapply Forall_impl; [exact Hcl|]. intros z Hz. unfold new in *. by rewrite Es. }
    destruct (drops_fresh _ _ cl G1 G2 Hcl') as [G3 G4]. unfold unwind. cbn [clusters todo].
    apply both_intro; [done|done|split; [done|by apply Forall_nil_2]|].
    destruct (drop_boxes_eq cl (drop_box b m)) as (_ & -> & _). lia.
  - destruct Hpc as (P1 & P2 & P3 & P4 & P5). rewrite <- (deref_alike m m' c HA P5).
    destruct (deref m c) as [y|]; [|done]. cbn [mbind option_bind]. destruct (c <? b)%N; apply Hgo; cbn; done.
  - destruct Hpc as (P1 & P2 & P3 & P4 & P5). unfold rollback. pose proof (state_fresh ROLLED_BACK c m m' HA HF P5) as Hst.
    destruct (set_state_from_new ROLLED_BACK c m) as [[m1 ok]|], (set_state_from_new ROLLED_BACK c m') as [[m1' ok']|]; [|done..].
    destruct Hst as (<- & G1 & G2 & Es). cbn [mbind option_bind fst snd].
    assert (Hcl' : Forall (fun x : N * list P => new m1 x.1) cl).
    { eapply Forall_impl; [exact Hcl|]. intros z Hz. unfold new in *. by rewrite Es. }
    destruct ok; (apply both_intro; [done|done| |lia]); (split; [|done]); cbn; unfold new; rewrite Es; (split; [exact P1|]); [|done].
    split; [|done]. apply Forall_app. split; [done|]. by apply Forall_singleton.
  - destruct Hpc as (P1 & P2). unfold rollback. pose proof (state_fresh ROLLED_BACK b m m' HA HF P1) as Hst.
    destruct (set_state_from_new ROLLED_BACK b m) as [[m1 ok]|], (set_state_from_new ROLLED_BACK b m') as [[m1' ok']|]; [|done..].
    destruct Hst as (<- & G1 & G2 & Es). cbn [mbind option_bind fst snd]. apply both_intro; [done|done| |lia]. split.
    + cbn. unfold new. rewrite Es. done.
    + eapply Forall_impl; [exact Hcl|]. intros z Hz. unfold new in *. by rewrite Es.
  - destruct Hpc as (P1 & P2). unfold commit. pose proof (state_fresh COMMITTED b m m' HA HF P1) as Hst.
    destruct (set_state_from_new COMMITTED b m) as [[m1 ok]|], (set_state_from_new COMMITTED b m') as [[m1' ok']|]; [|done..].
    destruct Hst as (<- & G1 & G2 & Es). cbn [mbind option_bind fst snd].
    assert (Hcl' : Forall (fun x : N * list P => new m1 x.1) cl).
    { eapply Forall_impl; [exact Hcl|]. intros z Hz. unfold new in *. by rewrite Es. }
    destruct ok; (apply both_intro; [done|done| |lia]); split; cbn [at_pc clusters pc_fresh]; [done| | |done].
    + apply Forall_app. split; [exact Hcl'|]. apply Forall_singleton. cbn. unfold new. rewrite Es. exact P1.
    + split; [|by split]. unfold new. rewrite Es. exact P1.
  - by apply Hgo.
  - by apply Hgo.
Qed.

Definition s_fresh s : Prop := m_fresh (mem s) /\ forall t, t ∈ threads s -> t_fresh (mem s) t.
Definition s_alike s s' : Prop :=
  alike (mem s) (mem s') /\ threads s = threads s' /\ undefined s = undefined s'.

Lemma system_both s s' i : s_alike s s' -> s_fresh s -> s_alike (system_step s i) (system_step s' i) /\ s_fresh (system_step s i).
Proof.
  intros Hs Hf. pose proof Hs as (HA & Et & Eu). pose proof Hf as (HF & HT).
  unfold ParallelClusterer.system_step. rewrite <- Eu, <- Et.
  destruct (undefined s); [exact (conj Hs Hf)|]. destruct (threads s !! i) as [t|] eqn:Hi; [|exact (conj Hs Hf)].
  assert (Hin : t ∈ threads s) by by eapply elem_of_list_lookup_2.
  pose proof (step_both (mem s) (mem s') t HA HF (HT t Hin)) as Hb. unfold both in Hb.
  destruct (thread_step (mem s) t) as [[m1 t1]|], (thread_step (mem s') t) as [[m1' t1']|]; [|done|done|].
  - destruct Hb as (<- & G1 & G2 & G3 & Hle). split; [done|]. split; [done|]. cbn. intros u Hu'.
    apply elem_of_list_lookup in Hu' as [j Hj]. apply list_lookup_insert_Some in Hj as [(-> & -> & _)|[_ Hj]]; [done|].
    apply (t_fresh_mono (mem s)); [done|]. apply HT. by eapply elem_of_list_lookup_2.
  - split; [split; [exact HA|done]|exact Hf].
Qed.

Lemma run_both s s' l : s_alike s s' -> s_fresh s -> s_alike (run_schedule s l) (run_schedule s' l) /\ s_fresh (run_schedule s l).
Proof.
  revert s s'. unfold ParallelClusterer.run_schedule. induction l as [|i l IH]; intros s s' HA HF; [done|]. cbn.
  destruct (system_both s s' i HA HF). by apply IH.
Qed.

Lemma start_both m0' chunks l : same_pointers m0 m0' ->
  let s := run_schedule (System m0 (cluster_slice_start query <$> chunks) false) l in
  let s' := run_schedule (System m0' (cluster_slice_start query <$> chunks) false) l in
  s_alike s s' /\ s_fresh s.
Proof.
  intros [E1 E2]. apply run_both.
  - split_and!; [|done..]. split_and!; [done..|]. unfold new. cbn. intros a Ha. lia.
  - split.
    + split; [cbn; lia|done| |done]. intros p a Hp. unfold open_point in Hp. cbn. congruence.
    + cbn. intros t (ch & -> & _)%elem_of_list_fmap. unfold cluster_slice_start.
      destruct (sort_by_most_number_of_similar_points query ch); split; cbn; done.
Qed.
End Facts.
