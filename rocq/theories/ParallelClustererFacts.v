(** What holds for all interleavings of the parallel clusterer. *)
From stdpp Require Import base list gmap.
From Coq Require Import NArith.
From Verif Require Import ListFacts Base ParallelClusterer.
Local Open Scope nat_scope.

Section Facts.
Context {P : Type} `{Countable P}.
Context (query : P -> res (list P)) (min : nat) (checks : bool).
Notation memory := (memory P).
Notation thread := (thread P).
Notation system := (system (P := P)).
Notation thread_step := (thread_step query min checks).
Notation system_step := (system_step query min checks).
Implicit Types (m : memory) (t : thread) (s : system) (a c : N) (p : P).

(** The box of the current attempt. *)
Definition owner (x : pc P) : option N :=
  match x with
  | Check a _ _ _ | Undo a _ _ _ | Assign a _ _ _ | Conflict1 a _ _ _ _ _ | Conflict2 a _ _ _ _ _
  | Conflict3 a _ _ _ _ _ | Conflict4 a _ _ _ _ _ | Fail a _ | Commit a _ => Some a
  | _ => None
  end.

(** All boxes that belong to a thread. *)
Definition ids t : list N := (clusters t).*1 ++ option_list (owner (at_pc t)).

(** The attempt of a thread may have set the pointer of [p] to [a]. *)
Definition holds (x : pc P) a p : Prop :=
  match x with
  | Check a' own _ _ | Assign a' own _ _ | Conflict1 a' own _ _ _ _ | Conflict2 a' own _ _ _ _
  | Conflict3 a' own _ _ _ _ | Conflict4 a' own _ _ _ _ | Fail a' own | Commit a' own
  | Undo a' own _ (Some _) => a = a' /\ p ∈ own
  | Undo a' _ pending None => a = a' /\ p ∈ pending
  | _ => False
  end.
Definition claim t a p : Prop :=
  (exists own, (a, own) ∈ clusters t /\ p ∈ own) \/ holds (at_pc t) a p.

(** Points that form (part of) an attempt from the chunk [ch]. *)
Definition from_seed (ch : list P) (l : list P) : Prop :=
  exists p found, p ∈ ch /\ query p = Some found /\ l `sublist_of` found.
Definition pc_ok (ch : list P) (x : pc P) : Prop :=
  match x with
  | Filter qs acc => from_seed ch (acc ++ qs)
  | Alloc pts => from_seed ch pts
  | Check _ own rest _ | Assign _ own rest _ | Undo _ own _ (Some (rest, _)) => from_seed ch (own ++ rest)
  | Conflict1 _ own p rest _ _ | Conflict2 _ own p rest _ _ | Conflict3 _ own p rest _ _
  | Conflict4 _ own p rest _ _ => from_seed ch (own ++ p :: rest)
  | Commit _ own => from_seed ch own
  | _ => True
  end.

Record thread_ok m (ch : list P) t : Prop := {
  t_todo : forall p, p ∈ todo t -> p ∈ ch;
  t_pc : pc_ok ch (at_pc t);
  t_clusters : forall a own, (a, own) ∈ clusters t ->
    from_seed ch own /\ boxes m !! a = Some (Box 1 false);
  t_owner : forall a, owner (at_pc t) = Some a -> exists st, boxes m !! a = Some (Box st false);
}.

Record good_start m0 : Prop := {
  start_cells : forall p a, cells m0 !! p = Some a ->
    (a <= sequence m0)%N /\ boxes m0 !! a = Some (Box 1 false);
}.

Record inv m0 (chunks : list (list P)) s : Prop := {
  i_len : length (threads s) = length chunks;
  i_thread : forall i t ch, threads s !! i = Some t -> chunks !! i = Some ch -> thread_ok (mem s) ch t;
  i_ids : forall i t, threads s !! i = Some t ->
    NoDup (ids t) /\ forall a, a ∈ ids t -> (sequence m0 < a <= sequence (mem s))%N;
  i_disj : forall i j t u a, i ≠ j -> threads s !! i = Some t -> threads s !! j = Some u ->
    a ∈ ids t -> a ∉ ids u;
  i_old : forall p a, cells m0 !! p = Some a -> cells (mem s) !! p = Some a;
  i_cells : forall p a, cells (mem s) !! p = Some a ->
    cells m0 !! p = Some a \/
    exists i t, threads s !! i = Some t /\ (claim t a p \/ at_pc t = Panicked);
  i_prior : forall a, (a <= sequence m0)%N -> boxes m0 !! a = Some (Box 1 false) ->
    boxes (mem s) !! a = Some (Box 1 false);
  i_seq : (sequence m0 <= sequence (mem s))%N;
}.

(** How a step of one thread may change the boxes of others. *)
Definition box_le (b b' : option box) : Prop :=
  (b = Some (Box 1 false) -> b' = Some (Box 1 false)) /\
  (forall st, b = Some (Box st false) -> exists st', b' = Some (Box st' false)).

Lemma box_le_refl b : box_le b b.
Proof. split; eauto. Qed.

Record local_step m t m' t' : Prop := {
  ls_ids : (ids t' `sublist_of` ids t /\ sequence m' = sequence m) \/
           (ids t' = ids t ++ [(sequence m + 1)%N] /\ sequence m' = (sequence m + 1)%N);
  ls_boxes : forall a, a ∉ ids t -> a ≠ (sequence m + 1)%N ->
    box_le (boxes m !! a) (boxes m' !! a);
  ls_cells : forall p a, cells m' !! p = Some a ->
    (cells m !! p = Some a /\ (claim t a p -> claim t' a p \/ at_pc t' = Panicked)) \/ claim t' a p;
  ls_panic : at_pc t = Panicked -> at_pc t' = Panicked;
  ls_old : forall p a, cells m !! p = Some a -> owner (at_pc t) ≠ Some a -> cells m' !! p = Some a;
}.

Lemma ids_elem t a : a ∈ ids t <-> (exists own, (a, own) ∈ clusters t) \/ owner (at_pc t) = Some a.
Proof.
  unfold ids. rewrite elem_of_app, elem_of_list_fmap. split.
  - intros [([a' own] & -> & Hin)|Ho]; [left; eauto|right].
    destruct (owner (at_pc t)) as [a'|]; cbn in Ho; [|by apply elem_of_nil in Ho].
    by apply elem_of_list_singleton in Ho as ->.
  - intros [[own Hin]|Ho]; [left; by exists (a, own)|right]. rewrite Ho. by left.
Qed.

Lemma inv_step m0 chunks s i t ch m' t' :
  good_start m0 -> inv m0 chunks s -> threads s !! i = Some t -> chunks !! i = Some ch ->
  local_step (mem s) t m' t' -> thread_ok m' ch t' ->
  inv m0 chunks (System m' (<[i := t']> (threads s)) false).
Proof.
  intros Hg HI Ht Hch [L1 L2 L3 L4 L5] Hok.
  pose proof (lookup_lt_Some _ _ _ Ht) as Hlt.
  assert (Hid : forall a, a ∈ ids t' -> a ∈ ids t \/ a = (sequence (mem s) + 1)%N).
  { intros a Ha. destruct L1 as [[Hs _]|[E _]].
    - left. eapply elem_of_submseteq; [exact Ha|]. by apply sublist_submseteq.
    - rewrite E in Ha. set_solver. }
  assert (Hbox : forall a, a ∉ ids t -> (a <= sequence (mem s))%N ->
    box_le (boxes (mem s) !! a) (boxes m' !! a)).
  { intros a Ha Hs. apply L2; [done|lia]. }
  split; cbn [threads mem].
  - rewrite insert_length. apply HI.
  - intros j u ch' Hu Hch'. destruct (decide (i = j)) as [<-|Hne].
    + rewrite list_lookup_insert in Hu by done. injection Hu as <-.
      rewrite Hch in Hch'. injection Hch' as <-. done.
    + rewrite list_lookup_insert_ne in Hu by done.
      destruct (i_thread _ _ _ HI j u ch' Hu Hch') as [T1 T2 T3 T4].
      assert (Hdis : forall a, a ∈ ids u -> box_le (boxes (mem s) !! a) (boxes m' !! a)).
      { intros a Ha. apply Hbox.
        - intros Ha'. by apply (i_disj _ _ _ HI i j t u a Hne Ht Hu Ha').
        - destruct (i_ids _ _ _ HI j u Hu) as [_ Hr]. specialize (Hr a Ha). lia. }
      split; [done|done| |].
      * intros a own Hin. destruct (T3 a own Hin) as [Hs Hb]. split; [done|].
        apply Hdis; [|done]. apply ids_elem. eauto.
      * intros a Ho. destruct (T4 a Ho) as [st Hb]. eapply Hdis; [|exact Hb]. apply ids_elem. by right.
  - intros j u Hu. destruct (decide (i = j)) as [<-|Hne].
    + rewrite list_lookup_insert in Hu by done. injection Hu as <-.
      destruct (i_ids _ _ _ HI i t Ht) as [Hnd Hr].
      destruct L1 as [[Hs Hq]|[E Hq]].
      * split; [by eapply sublist_NoDup|]. rewrite Hq. intros a Ha. apply Hr.
        eapply elem_of_submseteq; [exact Ha|]. by apply sublist_submseteq.
      * rewrite E, Hq. split.
        -- apply NoDup_app. split; [done|]. split; [|apply NoDup_singleton].
           intros a Ha Ha'. apply elem_of_list_singleton in Ha' as ->. specialize (Hr _ Ha). lia.
        -- intros a [Ha|Ha]%elem_of_app; [specialize (Hr a Ha); lia|].
           apply elem_of_list_singleton in Ha as ->. pose proof (i_seq _ _ _ HI). lia.
    + rewrite list_lookup_insert_ne in Hu by done. destruct (i_ids _ _ _ HI j u Hu) as [Hnd Hr].
      split; [done|]. intros a Ha. specialize (Hr a Ha).
      destruct L1 as [[_ ->]|[_ ->]]; lia.
  - intros j k u v a Hjk Hu Hv Ha.
    destruct (decide (i = j)) as [<-|Hne]; destruct (decide (i = k)) as [<-|Hne'].
    + done.
    + rewrite list_lookup_insert in Hu by done. injection Hu as <-.
      rewrite list_lookup_insert_ne in Hv by done.
      destruct (Hid a Ha) as [Ha'| ->].
      * by apply (i_disj _ _ _ HI i k t v a).
      * intros Hv'. destruct (i_ids _ _ _ HI k v Hv) as [_ Hr]. specialize (Hr _ Hv'). lia.
    + rewrite list_lookup_insert in Hv by done. injection Hv as <-.
      rewrite list_lookup_insert_ne in Hu by done.
      intros Ha2. destruct (Hid a Ha2) as [Ha'| ->].
      * by apply (i_disj _ _ _ HI i j t u a).
      * destruct (i_ids _ _ _ HI j u Hu) as [_ Hr]. specialize (Hr _ Ha). lia.
    + rewrite list_lookup_insert_ne in Hu, Hv by done. by apply (i_disj _ _ _ HI j k u v a).
  - intros p a Hp. pose proof (i_old _ _ _ HI p a Hp) as Hp'. apply L5; [done|].
    intros Ho. destruct (i_ids _ _ _ HI i t Ht) as [_ Hr].
    specialize (Hr a ltac:(apply ids_elem; by right)).
    destruct (start_cells _ Hg p a Hp) as [Hle _]. lia.
  - intros p a Hp. destruct (L3 p a Hp) as [[Hp' Hc]|Hc].
    + destruct (i_cells _ _ _ HI p a Hp') as [Hold|(j & u & Hu & Hcl)]; [by left|right].
      destruct (decide (i = j)) as [<-|Hne].
      * rewrite Ht in Hu. injection Hu as <-. exists i, t'. rewrite list_lookup_insert by done.
        split; [done|]. destruct Hcl as [Hcl|Hpan]; [auto|right; auto].
      * exists j, u. by rewrite list_lookup_insert_ne.
    + right. exists i, t'. rewrite list_lookup_insert by done. auto.
  - intros a Ha Hb. pose proof (i_prior _ _ _ HI a Ha Hb) as Hb'. apply Hbox; [| |done].
    + intros Hin. destruct (i_ids _ _ _ HI i t Ht) as [_ Hr]. specialize (Hr a Hin). lia.
    + pose proof (i_seq _ _ _ HI). lia.
  - pose proof (i_seq _ _ _ HI). destruct L1 as [[_ ->]|[_ ->]]; lia.
Qed.

Lemma sublist_snoc_skip (l1 l2 : list P) p found :
  l1 ++ p :: l2 `sublist_of` found -> l1 ++ l2 `sublist_of` found.
Proof. intros Hs. etrans; [|exact Hs]. apply sublist_app; [done|]. by apply sublist_cons. Qed.

Lemma from_seed_skip ch l1 l2 p : from_seed ch (l1 ++ p :: l2) -> from_seed ch (l1 ++ l2).
Proof. intros (q & f & H1 & H2 & H3). exists q, f. split_and!; eauto using sublist_snoc_skip. Qed.

Lemma from_seed_snoc ch l1 l2 p : from_seed ch (l1 ++ p :: l2) -> from_seed ch ((l1 ++ [p]) ++ l2).
Proof. by rewrite <- app_assoc. Qed.

Lemma from_seed_left ch l1 l2 : from_seed ch (l1 ++ l2) -> from_seed ch l1.
Proof.
  intros (q & f & H1 & H2 & H3). exists q, f. split_and!; [done|done|].
  etrans; [|exact H3]. apply sublist_inserts_r. done.
Qed.

Lemma deref_Some m a b : deref m a = Some b <-> boxes m !! a = Some b /\ freed b = false.
Proof.
  unfold deref. destruct (boxes m !! a) as [[st fr]|]; [|naive_solver].
  cbn. destruct fr; naive_solver.
Qed.

(** A state change of a box. *)
Lemma set_state_spec st a m m' ok :
  set_state_from_new st a m = Some (m', ok) ->
  cells m' = cells m /\ sequence m' = sequence m /\
  exists st0, boxes m !! a = Some (Box st0 false) /\
    if ok then st0 = 0%N /\ boxes m' = <[a := Box st false]> (boxes m) else st0 ≠ 0%N /\ m' = m.
Proof.
  unfold set_state_from_new. destruct (deref m a) as [[st0 fr]|] eqn:Ed; [|done].
  apply deref_Some in Ed as [Hb Hf]. cbn in Hf. subst fr. cbn.
  destruct (N.eqb_spec st0 0) as [->|Hne]; intros [= <- <-]; cbn; split_and!; eauto.
Qed.

Lemma set_state_le st a m m' ok a' :
  set_state_from_new st a m = Some (m', ok) -> box_le (boxes m !! a') (boxes m' !! a').
Proof.
  intros (_ & _ & st0 & Hb & Hok)%set_state_spec. destruct ok; [|destruct Hok as [_ ->]; apply box_le_refl].
  destruct Hok as [-> ->]. destruct (decide (a = a')) as [<-|Hne].
  - rewrite lookup_insert. split; [congruence|eauto].
  - rewrite lookup_insert_ne by done. apply box_le_refl.
Qed.

Lemma thread_ok_le ch m m' t x :
  (forall a, a ∈ ids t -> box_le (boxes m !! a) (boxes m' !! a)) ->
  thread_ok m ch t -> pc_ok ch x -> (owner x = owner (at_pc t) \/ owner x = None) ->
  thread_ok m' ch (Thread x (todo t) (clusters t)).
Proof.
  intros Hb [T1 T2 T3 T4] Hx Ho. split; cbn [todo at_pc clusters]; [done|done| |].
  - intros a own Hin. destruct (T3 a own Hin) as [Hs Hbx]. split; [done|].
    apply Hb; [|done]. apply ids_elem. eauto.
  - intros a Ha. destruct Ho as [Ho|Ho]; [|congruence]. rewrite Ho in Ha.
    destruct (T4 a Ha) as [st Hst]. eapply Hb; [|exact Hst]. apply ids_elem. by right.
Qed.

(** Steps that change only the position and perhaps the state of a box. *)
Lemma pos_step ch m m' t x :
  cells m' = cells m -> sequence m' = sequence m ->
  (forall a, box_le (boxes m !! a) (boxes m' !! a)) ->
  thread_ok m ch t -> pc_ok ch x -> owner x = owner (at_pc t) ->
  (forall a p, cells m !! p = Some a -> holds (at_pc t) a p -> holds x a p) -> at_pc t ≠ Panicked ->
  local_step m t m' (Thread x (todo t) (clusters t)) /\ thread_ok m' ch (Thread x (todo t) (clusters t)).
Proof.
  intros Hc Hs Hb Hok Hx Ho Hh Hp. split; [|apply (thread_ok_le ch m); auto].
  split.
  - left. split; [|done]. unfold ids. cbn [clusters at_pc]. by rewrite Ho.
  - auto.
  - intros p a. rewrite Hc. intros Hpa. left. split; [done|]. intros [Hcl|Hh']; left; [by left|right].
    cbn. eauto.
  - done.
  - intros p a Hpa _. by rewrite Hc.
Qed.

(** Unwinding. *)
Lemma drop_box_eq a m : cells (drop_box a m) = cells m /\ sequence (drop_box a m) = sequence m /\
  forall a', a' ≠ a -> boxes (drop_box a m) !! a' = boxes m !! a'.
Proof.
  unfold drop_box. destruct (boxes m !! a); [|done]. cbn. split_and!; [done..|].
  intros a' Hne. by rewrite lookup_insert_ne.
Qed.
Lemma drop_boxes_eq (l : list (N * list P)) m : let m' := foldr (fun (x : N * list P) => drop_box x.1) m l in
  cells m' = cells m /\ sequence m' = sequence m /\
  forall a', a' ∉ l.*1 -> boxes m' !! a' = boxes m !! a'.
Proof.
  cbn zeta. induction l as [|[a own] l (IH1 & IH2 & IH3)]; [done|]. cbn [foldr fst].
  destruct (drop_box_eq a (foldr (fun (x : N * list P) => drop_box x.1) m l)) as (E1 & E2 & E3).
  split_and!; [by rewrite E1|by rewrite E2|]. intros a' Ha'. cbn in Ha'. apply not_elem_of_cons in Ha' as [Hne Ha'].
  rewrite E3 by done. by apply IH3.
Qed.
Lemma unwind_ok ch m m1 t : cells m1 = cells m -> sequence m1 = sequence m ->
  (forall a, a ∉ ids t -> boxes m1 !! a = boxes m !! a) -> thread_ok m ch t -> at_pc t ≠ Panicked ->
  local_step m t (unwind t m1).1 (unwind t m1).2 /\ thread_ok (unwind t m1).1 ch (unwind t m1).2.
Proof.
  intros Hc Hs Hb Hok Hp. unfold unwind. cbn [fst snd].
  destruct (drop_boxes_eq (clusters t) m1) as (E1 & E2 & E3). rewrite Hc in E1. rewrite Hs in E2.
  split.
  - split.
    + left. split; [|done]. apply sublist_nil_l.
    + intros a Ha _. rewrite E3, Hb; [apply box_le_refl|done|]. intros Hin. apply Ha. unfold ids. set_solver.
    + rewrite E1. intros p a Hpa. left. auto.
    + done.
    + intros p a Hpa _. by rewrite E1.
  - destruct Hok as [T1 T2 T3 T4]. split; try done. intros a own Hin. by apply elem_of_nil in Hin.
Qed.

Lemma local_ok m ch t m' t' :
  thread_step m t = Some (m', t') -> thread_ok m ch t ->
  NoDup (ids t) -> (forall a, a ∈ ids t -> (a <= sequence m)%N) ->
  local_step m t m' t' /\ thread_ok m' ch t'.
Proof.
  intros Hst Hok Hnd Hle. destruct t as [x td cl]. unfold ParallelClusterer.thread_step in Hst.
  cbn [at_pc todo clusters] in Hst.
  pose proof (t_pc _ _ _ Hok) as Hpc. cbn [at_pc] in Hpc.
  destruct x as [|qs acc|pts|a own rest i|a own pending k|a own rest i|a own p rest i c
    |a own p rest i c|a own p rest i c|a own p rest i c|a own|a own| |].
  - (* Next *)
    destruct td as [|p td]; [|destruct (cells m !! p) as [c|]; [|destruct (query p) as [found|] eqn:Eq]];
      injection Hst as <- <-.
    + apply (pos_step ch m m (Thread Next [] cl) Done); auto using box_le_refl; done.
    + split.
      * split; [left; done|auto using box_le_refl| |done|done].
        intros q a Hq. left. auto.
      * destruct Hok as [T1 T2 T3 T4]. split; try done. cbn in *. set_solver.
    + split.
      * split; [left; done|auto using box_le_refl| |done|done].
        intros q a Hq. left. auto.
      * destruct Hok as [T1 T2 T3 T4]. split; try done; cbn in *; [set_solver|].
        exists p, found. set_solver.
    + by apply (unwind_ok ch m m (Thread Next (p :: td) cl)).
  - (* Filter *)
    destruct qs as [|q qs].
    + destruct (min <=? length acc); injection Hst as <- <-.
      * apply (pos_step ch m m (Thread (Filter [] acc) td cl)); auto using box_le_refl; try done.
        cbn in Hpc |- *. by rewrite app_nil_r in Hpc.
      * apply (pos_step ch m m (Thread (Filter [] acc) td cl)); auto using box_le_refl; done.
    + destruct (cells m !! q); injection Hst as <- <-.
      * apply (pos_step ch m m (Thread (Filter (q :: qs) acc) td cl)); auto using box_le_refl; try done.
        cbn. by eapply from_seed_skip.
      * apply (pos_step ch m m (Thread (Filter (q :: qs) acc) td cl)); auto using box_le_refl; try done.
        cbn. by apply from_seed_snoc.
  - (* Alloc *)
    injection Hst as <- <-. split.
    + split; cbn [cells boxes sequence].
      * right. unfold ids. cbn. rewrite app_nil_r. done.
      * intros a _ Ha. rewrite lookup_insert_ne by done. apply box_le_refl.
      * intros p a Hp. left. split; [done|]. intros [Hc|[]]. left. by left.
      * done.
      * done.
    + destruct Hok as [T1 T2 T3 T4]. split; cbn [todo at_pc clusters boxes owner]; [done|done| |].
      * intros a own Hin. destruct (T3 a own Hin) as [Hs Hb]. split; [done|].
        rewrite lookup_insert_ne; [done|]. assert (a ∈ ids (Thread (Alloc pts) td cl)) by (apply ids_elem; eauto).
        specialize (Hle a ltac:(done)). lia.
      * intros a [= <-]. rewrite lookup_insert. eauto.
  - (* Check *)
    destruct rest as [|p rest].
    + injection Hst as <- <-.
      apply (pos_step ch m m (Thread (Check a own [] i) td cl)); auto using box_le_refl; try done.
      cbn in Hpc |- *. by rewrite app_nil_r in Hpc.
    + destruct (is_rolled_back m a) as [rb|]; [|done]. cbn in Hst. destruct rb; injection Hst as <- <-.
      * apply (pos_step ch m m (Thread (Check a own (p :: rest) i) td cl)); auto using box_le_refl; done.
      * apply (pos_step ch m m (Thread (Check a own (p :: rest) i) td cl)); auto using box_le_refl; done.
  - (* Undo *)
    destruct pending as [|p pending].
    + destruct k as [[rest i]|]; injection Hst as <- <-.
      * apply (pos_step ch m m (Thread (Undo a own [] (Some (rest, i))) td cl)); auto using box_le_refl; done.
      * assert (Hcl : forall a' own', (a', own') ∈ cl -> a' ≠ a).
        { intros a' own' Hin ->. unfold ids in Hnd. cbn in Hnd. apply NoDup_app in Hnd as (_ & Hd & _).
          apply (Hd a); [apply elem_of_list_fmap; by exists (a, own')|by left]. }
        assert (Hdb : forall a', a' ≠ a -> boxes (drop_box a m) !! a' = boxes m !! a').
        { intros a' Hne. unfold drop_box. destruct (boxes m !! a); [|done]. cbn.
          by rewrite lookup_insert_ne. }
        assert (Hdc : cells (drop_box a m) = cells m /\ sequence (drop_box a m) = sequence m).
        { unfold drop_box. by destruct (boxes m !! a). }
        destruct Hdc as [Hdc Hds]. split.
        -- split.
           ++ left. split; [|done]. unfold ids. cbn. apply sublist_app; [done|]. apply sublist_nil_l.
           ++ intros a' Ho Hn. rewrite Hdb; [apply box_le_refl|]. intros ->. apply Ho, ids_elem. by right.
           ++ rewrite Hdc. intros p a' Hp. left. split; [done|].
              intros [Hc|[_ Hh]]; [left; by left|]. cbn in Hh. by apply elem_of_nil in Hh.
           ++ done.
           ++ intros p a' Hp _. by rewrite Hdc.
        -- destruct Hok as [T1 T2 T3 T4]. split; try done.
           cbn [clusters]. intros a' own' Hin. destruct (T3 a' own' Hin) as [Hs Hb]. split; [done|].
           rewrite Hdb; [done|]. by eapply Hcl.
    + injection Hst as <- <-.
      assert (Hub : boxes (unassign p a m) = boxes m /\ sequence (unassign p a m) = sequence m).
      { unfold unassign. by case_decide. }
      destruct Hub as [Hub Hus].
      assert (Huc : forall q a', cells (unassign p a m) !! q = Some a' ->
                cells m !! q = Some a' /\ (q = p -> a' ≠ a)).
      { intros q a'. unfold unassign. case_decide as E; cbn.
        - rewrite lookup_delete_Some. intros [Hne Hq]. split; [done|congruence].
        - intros Hq. split; [done|]. intros ->. congruence. }
      split.
      * split.
        -- left. done.
        -- intros a' _ _. rewrite Hub. apply box_le_refl.
        -- intros q a' Hq. apply Huc in Hq as [Hq Hne]. left. split; [done|].
           intros [Hc|Hh]; left; [by left|right]. cbn in Hh |- *. destruct k as [kk|]; [done|].
           destruct Hh as [-> Hin]. split; [done|]. apply elem_of_cons in Hin as [->|Hin]; [|done].
           exfalso. by apply Hne.
        -- done.
        -- intros q a' Hq Ho. unfold unassign. case_decide as E; [|done]. cbn.
           rewrite lookup_delete_ne; [done|]. intros ->. cbn in Ho. congruence.
      * apply (thread_ok_le ch m _ (Thread (Undo a own (p :: pending) k) td cl)); auto.
        intros a' _. rewrite Hub. apply box_le_refl.
  - (* Assign *)
    destruct rest as [|p rest].
    + injection Hst as <- <-.
      apply (pos_step ch m m (Thread (Assign a own [] i) td cl)); auto using box_le_refl; try done.
      cbn in Hpc |- *. by rewrite app_nil_r in Hpc.
    + unfold assign_cluster in Hst. destruct (cells m !! p) as [c|] eqn:Ep; injection Hst as <- <-.
      * apply (pos_step ch m m (Thread (Assign a own (p :: rest) i) td cl)); auto using box_le_refl; done.
      * split.
        -- split; cbn [cells set_cells boxes sequence].
           ++ left. done.
           ++ intros a' _ _. apply box_le_refl.
           ++ intros q a'. destruct (decide (q = p)) as [->|Hne].
              ** rewrite lookup_insert. intros [= <-]. right. right. cbn. split; [done|]. set_solver.
              ** rewrite lookup_insert_ne by done. intros Hq. left. split; [done|].
                 intros [Hc|Hh]; left; [by left|right]. cbn in Hh |- *. set_solver.
           ++ done.
           ++ intros q a' Hq _. rewrite lookup_insert_ne; [done|]. congruence.
        -- apply (thread_ok_le ch m _ (Thread (Assign a own (p :: rest) i) td cl)); auto using box_le_refl.
           cbn. by apply from_seed_snoc.
  - (* Conflict1 *)
    destruct (is_commited m c) as [b|]; [|done]. cbn in Hst. destruct b; injection Hst as <- <-;
      apply (pos_step ch m m (Thread (Conflict1 a own p rest i c) td cl)); auto using box_le_refl; done.
  - (* Conflict2 *)
    destruct (is_rolled_back m c) as [b|]; [|done]. cbn in Hst.
    destruct b; [destruct (checks && (i =? 0))%bool|]; injection Hst as <- <-.
    + destruct (drop_box_eq a m) as (E1 & E2 & E3).
      apply (unwind_ok ch m (drop_box a m) (Thread (Conflict2 a own p rest i c) td cl)); [done|done| |done|done].
      intros a' Ha'. apply E3. intros ->. apply Ha', ids_elem. by right.
    + apply (pos_step ch m m (Thread (Conflict2 a own p rest i c) td cl)); auto using box_le_refl; try done.
      cbn. by eapply from_seed_skip.
    + apply (pos_step ch m m (Thread (Conflict2 a own p rest i c) td cl)); auto using box_le_refl; done.
  - (* Conflict3 *)
    destruct (deref m c); [|done]. cbn in Hst. destruct (c <? a)%N; injection Hst as <- <-;
      apply (pos_step ch m m (Thread (Conflict3 a own p rest i c) td cl)); auto using box_le_refl; done.
  - (* Conflict4 *)
    destruct (rollback c m) as [[m1 ok]|] eqn:Er; [|done]. cbn in Hst.
    pose proof (fun a' => set_state_le _ _ _ _ _ a' Er) as Hb.
    apply set_state_spec in Er as (Hc & Hs & _).
    destruct ok; injection Hst as <- <-.
    + apply (pos_step ch m m1 (Thread (Conflict4 a own p rest i c) td cl)); auto; try done.
      * cbn. by apply from_seed_snoc.
      * cbn. intros a' q _ [-> Hin]. set_solver.
    + apply (pos_step ch m m1 (Thread (Conflict4 a own p rest i c) td cl)); auto; done.
  - (* Fail *)
    destruct (rollback a m) as [[m1 ok]|] eqn:Er; [|done]. cbn in Hst. injection Hst as <- <-.
    pose proof (fun a' => set_state_le _ _ _ _ _ a' Er) as Hb.
    apply set_state_spec in Er as (Hc & Hs & _).
    apply (pos_step ch m m1 (Thread (Fail a own) td cl)); auto; done.
  - (* Commit *)
    destruct (commit a m) as [[m1 ok]|] eqn:Er; [|done]. cbn in Hst.
    pose proof (fun a' => set_state_le _ _ _ _ _ a' Er) as Hb.
    apply set_state_spec in Er as (Hc & Hs & st0 & Hst0 & Hok').
    destruct ok; injection Hst as <- <-.
    + destruct Hok' as [-> Hbx]. split.
      * split.
        -- left. split; [|done]. unfold ids. cbn. rewrite app_nil_r, fmap_app. done.
        -- auto.
        -- rewrite Hc. intros q a' Hq. left. split; [done|]. intros [(own' & Hin & Hq')|[-> Hq']].
           ++ left. left. exists own'. split; [|done]. cbn in *. set_solver.
           ++ left. left. exists own. split; [|done]. cbn. set_solver.
        -- done.
        -- intros q a' Hq _. by rewrite Hc.
      * destruct Hok as [T1 T2 T3 T4]. split; try done.
        cbn [clusters]. intros a' own' [Hin|Hin]%elem_of_app.
        -- destruct (T3 a' own' Hin) as [Hsd Hbx']. split; [done|]. by apply Hb.
        -- apply elem_of_list_singleton in Hin as [= -> ->]. split; [done|]. by rewrite Hbx, lookup_insert.
    + apply (pos_step ch m m1 (Thread (Commit a own) td cl)); auto; done.
  - (* Done *)
    injection Hst as <- <-.
    apply (pos_step ch m m (Thread Done td cl)); auto using box_le_refl; done.
  - (* Panicked *)
    injection Hst as <- <-. split.
    + split; [left; done|auto using box_le_refl| |done|done]. intros q a Hq. left. auto.
    + done.
Qed.

Lemma system_inv m0 chunks s i :
  good_start m0 -> inv m0 chunks s -> undefined (system_step s i) = false ->
  inv m0 chunks (system_step s i).
Proof.
  intros Hg HI. unfold ParallelClusterer.system_step. destruct (undefined s) eqn:Eu; [congruence|].
  destruct (threads s !! i) as [t|] eqn:Et; [|done].
  destruct (thread_step (mem s) t) as [[m' t']|] eqn:Est; [|done]. intros _.
  destruct (lookup_lt_is_Some_2 chunks i) as [ch Hch].
  { rewrite <- (i_len _ _ _ HI). by eapply lookup_lt_Some. }
  destruct (i_ids _ _ _ HI i t Et) as [Hnd Hr].
  destruct (local_ok (mem s) ch t m' t' Est (i_thread _ _ _ HI i t ch Et Hch) Hnd) as [L1 L2].
  { intros a Ha. specialize (Hr a Ha). lia. }
  by apply (inv_step m0 chunks s i t ch m' t').
Qed.

Lemma undefined_stable s i : undefined s = true -> system_step s i = s.
Proof. intros Hu. unfold ParallelClusterer.system_step. by rewrite Hu. Qed.

Lemma run_inv m0 chunks s sched :
  good_start m0 -> inv m0 chunks s -> undefined (run_schedule query min checks s sched) = false ->
  inv m0 chunks (run_schedule query min checks s sched).
Proof.
  intros Hg. unfold run_schedule. revert s. induction sched as [|i sched IH]; intros s HI Hu; [done|].
  cbn [fold_left] in *. destruct (undefined (system_step s i)) eqn:E.
  - exfalso. assert (Hst : forall l s', undefined s' = true -> undefined (fold_left system_step l s') = true).
    { induction l as [|j l IHl]; intros s' Hs'; [done|]. cbn. rewrite undefined_stable by done. auto. }
    rewrite Hst in Hu; done.
  - apply IH; [|done]. by apply system_inv.
Qed.

Lemma insert_sorted_perm count x (l : list P) : insert_sorted count x l ≡ₚ x :: l.
Proof.
  induction l as [|y l IH]; [done|]. cbn. destruct (count y <=? count x); [done|].
  rewrite IH. constructor.
Qed.

Lemma sort_perm points sorted :
  sort_by_most_number_of_similar_points query points = Some sorted -> sorted ≡ₚ points.
Proof.
  unfold sort_by_most_number_of_similar_points. destruct (mapM query points); [|done].
  cbn. intros [= <-]. clear. induction points as [|p ps IH]; [done|].
  cbn. by rewrite insert_sorted_perm, IH.
Qed.

Lemma start_inv m0 chunks :
  inv m0 chunks (System m0 (cluster_slice_start query <$> chunks) false).
Proof.
  assert (Hst : forall i t, (cluster_slice_start query <$> chunks) !! i = Some t ->
    exists ch, chunks !! i = Some ch /\ (forall p, p ∈ todo t -> p ∈ ch) /\ clusters t = [] /\
      (at_pc t = Next \/ at_pc t = Panicked)).
  { intros i t. rewrite list_lookup_fmap. intros (ch & Hch & ->)%fmap_Some. exists ch. split; [done|].
    unfold cluster_slice_start.
    destruct (sort_by_most_number_of_similar_points query ch) as [sorted|] eqn:E; cbn; [|auto].
    split; [|auto]. intros p. by rewrite (sort_perm _ _ E). }
  assert (Hids : forall i t, (cluster_slice_start query <$> chunks) !! i = Some t -> ids t = []).
  { intros i t Ht. destruct (Hst i t Ht) as (ch & _ & _ & Hc & [Hp|Hp]); unfold ids; by rewrite Hc, Hp. }
  split; cbn [threads mem].
  - by rewrite fmap_length.
  - intros i t ch Ht Hch. destruct (Hst i t Ht) as (ch' & Hch' & Htd & Hc & Hp).
    rewrite Hch in Hch'. injection Hch' as <-. split.
    + done.
    + by destruct Hp as [-> | ->].
    + rewrite Hc. intros a own Hin. by apply elem_of_nil in Hin.
    + by destruct Hp as [-> | ->].
  - intros i t Ht. rewrite (Hids i t Ht). split; [constructor|]. intros a Ha. by apply elem_of_nil in Ha.
  - intros i j t u a _ Ht _. rewrite (Hids i t Ht). intros Ha. by apply elem_of_nil in Ha.
  - done.
  - auto.
  - done.
  - done.
Qed.

(** ** Consequences *)
Lemma NoDup_concat_disjoint {A} (ls : list (list A)) :
  (forall i l, ls !! i = Some l -> NoDup l) ->
  (forall i j l k x, i ≠ j -> ls !! i = Some l -> ls !! j = Some k -> x ∈ l -> x ∉ k) ->
  NoDup (concat ls).
Proof.
  induction ls as [|l ls IH]; intros H1 H2; [constructor|]. cbn. apply NoDup_app. split_and!.
  - by apply (H1 0).
  - intros x Hx Hc. apply elem_of_list_In, in_concat in Hc as (k & Hk & Hxk).
    apply elem_of_list_In in Hk. apply elem_of_list_In in Hxk.
    apply elem_of_list_lookup in Hk as [j Hj]. by apply (H2 0 (S j) l k x).
  - apply IH; [intros i; apply (H1 (S i))|]. intros i j l' k x Hne Hi Hj. apply (H2 (S i) (S j)); [lia|done|done].
Qed.

Lemma inv_nodup m0 chunks s : inv m0 chunks s -> NoDup (concat (clusters <$> threads s)).*1.
Proof.
  intros HI. 
  assert (E : (concat (clusters <$> threads s)).*1 = concat ((fun t => (clusters t).*1) <$> threads s)).
  { generalize (threads s) as ts. induction ts as [|t ts IH]; [done|]. cbn. by rewrite fmap_app, IH. }
  rewrite E. apply NoDup_concat_disjoint.
  - intros i l. rewrite list_lookup_fmap. intros (t & Ht & ->)%fmap_Some.
    destruct (i_ids _ _ _ HI i t Ht) as [Hnd _]. unfold ids in Hnd. by apply NoDup_app in Hnd as [? _].
  - intros i j l k x Hne. rewrite !list_lookup_fmap.
    intros (t & Ht & ->)%fmap_Some (u & Hu & ->)%fmap_Some Hx Hx'.
    apply (i_disj _ _ _ HI i j t u x Hne Ht Hu); unfold ids; apply elem_of_app; by left.
Qed.

(** The guarantees of C47. *)
Lemma inv_guarantees m0 chunks (Hnd : forall p found, query p = Some found -> NoDup found) s :
  inv m0 chunks s -> undefined s = false ->
  NoDup (concat (clusters <$> threads s)).*1 /\
  (forall i t ch a own, threads s !! i = Some t -> chunks !! i = Some ch -> (a, own) ∈ clusters t ->
    (sequence m0 < a <= sequence (mem s))%N /\
    boxes (mem s) !! a = Some (Box COMMITTED false) /\
    NoDup own /\
    exists p found, p ∈ ch /\ query p = Some found /\ own `sublist_of` found) /\
  (forall p a, cells m0 !! p = Some a -> cells (mem s) !! p = Some a) /\
  (forall cs, result s = Some cs -> forall p a, cells (mem s) !! p = Some a ->
    cells m0 !! p = Some a \/ exists own, (a, own) ∈ cs /\ p ∈ own).
Proof.
  intros HI Hu.
  split; [by eapply inv_nodup|]. split_and!.
  - intros i t ch a own Ht Hch Hin.
    destruct (t_clusters _ _ _ (i_thread _ _ _ HI i t ch Ht Hch) a own Hin) as [(p & f & Hp & Hf & Hs) Hb].
    split_and!; [apply (i_ids _ _ _ HI i t Ht), ids_elem; eauto
      |apply (i_ids _ _ _ HI i t Ht), ids_elem; eauto|done|exact (sublist_NoDup _ _ (Hnd p f Hf) Hs)|].
    eauto.
  - apply HI.
  - intros cs Hr p a Hp. destruct (i_cells _ _ _ HI p a Hp) as [?|(i & t & Ht & Hc)]; [by left|right].
    unfold result in Hr. destruct (forallb is_done (threads s)) eqn:Ed; [|done].
    rewrite Hu in Hr. injection Hr as <-. rewrite forallb_forall in Ed.
    assert (Hd : is_done t = true) by (apply Ed, elem_of_list_In, elem_of_list_lookup; eauto).
    unfold is_done in Hd. destruct (at_pc t) eqn:Et; try done.
    destruct Hc as [[(own & Hin & Hpo)|Hh]|]; [|by rewrite Et in Hh|done].
    exists own. split; [|done]. apply elem_of_list_In, in_concat. exists (clusters t).
    split; [|by apply elem_of_list_In]. apply elem_of_list_In, elem_of_list_fmap.
    exists t. split; [done|]. apply elem_of_list_lookup. eauto.
Qed.
End Facts.
