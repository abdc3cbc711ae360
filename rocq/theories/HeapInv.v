(** What holds for all executions of HeapClusterer.v, whatever addresses the allocator gives. *)
From stdpp Require Import base list gmap.
From Coq Require Import NArith.
From Verif Require Import ListFacts Base ParallelClusterer ParallelClustererFacts HeapClusterer SpecHeap HeapFacts.
Local Open Scope nat_scope.

Section Inv.
Context {P : Type} `{Countable P}.
Context (query : P -> res (list P)) (min : nat) (checks : bool) (n : N).
Notation heap := (heap P).
Notation thread := (thread P).
Notation h_system := (h_system (P := P)).
Notation step := (h_thread_step query min checks).
Implicit Types (m : heap) (t : thread) (s : h_system) (a c : N) (p : P).

Record h_ok m (ch : list P) t : Prop := {
  h_todo : forall p, p ∈ todo t -> p ∈ ch;
  h_pc : pc_ok query ch (at_pc t);
  h_clusters : forall a own, (a, own) ∈ clusters t ->
    from_seed query ch own /\ exists id, h_boxes m !! a = Some (HBox id 1);
  h_owner : forall a, owner (at_pc t) = Some a -> is_Some (h_boxes m !! a);
}.

(** Ids of live boxes are new and pairwise distinct. *)
Record wf m : Prop := {
  w_ids : forall a b, h_boxes m !! a = Some b -> (n < h_id b <= h_sequence m)%N;
  w_inj : forall a c b b', h_boxes m !! a = Some b -> h_boxes m !! c = Some b' -> h_id b = h_id b' -> a = c;
  w_seq : (n <= h_sequence m)%N;
}.

Record hinv (chunks : list (list P)) s : Prop := {
  hi_len : length (h_threads s) = length chunks;
  hi_thread : forall i t ch, h_threads s !! i = Some t -> chunks !! i = Some ch -> h_ok (h_mem s) ch t;
  hi_ids : forall i t, h_threads s !! i = Some t -> NoDup (ids t);
  hi_disj : forall i j t u a, i ≠ j -> h_threads s !! i = Some t -> h_threads s !! j = Some u ->
    a ∈ ids t -> a ∉ ids u;
  hi_cells : forall p a, h_cells (h_mem s) !! p = Some a ->
    exists i t, h_threads s !! i = Some t /\ (claim t a p \/ at_pc t = Panicked);
  hi_wf : wf (h_mem s);
}.

Definition hbox_le (b b' : option hbox) : Prop :=
  (forall id, b = Some (HBox id 1) -> b' = Some (HBox id 1)) /\ (is_Some b -> is_Some b').
Lemma hbox_le_refl b : hbox_le b b.
Proof. split; auto. Qed.

Record hlocal m t m' t' : Prop := {
  hl_ids : ids t' `sublist_of` ids t \/ (exists a, ids t' = ids t ++ [a] /\ h_boxes m !! a = None);
  hl_boxes : forall a, a ∉ ids t -> hbox_le (h_boxes m !! a) (h_boxes m' !! a);
  hl_cells : forall p a, h_cells m' !! p = Some a ->
    (h_cells m !! p = Some a /\ (claim t a p -> claim t' a p \/ at_pc t' = Panicked)) \/ claim t' a p;
  hl_panic : at_pc t = Panicked -> at_pc t' = Panicked;
}.

Lemma h_ids_live m ch t a : h_ok m ch t -> a ∈ ids t -> is_Some (h_boxes m !! a).
Proof.
  intros [_ _ H1 H2] [[own Hin]|Ho]%ids_elem; [|auto]. destruct (H1 a own Hin) as [_ [id Hb]]. eauto.
Qed.

Lemma hinv_step chunks s i t ch m' t' :
  hinv chunks s -> h_threads s !! i = Some t -> chunks !! i = Some ch ->
  hlocal (h_mem s) t m' t' -> h_ok m' ch t' -> wf m' ->
  hinv chunks (HSystem m' (<[i := t']> (h_threads s)) false).
Proof.
  intros HI Ht Hch [L1 L2 L3 L4] Hok Hwf.
  pose proof (lookup_lt_Some _ _ _ Ht) as Hlt.
  assert (Hlive : forall j u a, h_threads s !! j = Some u -> a ∈ ids u -> is_Some (h_boxes (h_mem s) !! a)).
  { intros j u a Hu. destruct (lookup_lt_is_Some_2 chunks j) as [cj Hcj].
    { rewrite <- (hi_len _ _ HI). by eapply lookup_lt_Some. }
    eapply h_ids_live. by eapply (hi_thread _ _ HI). }
  assert (Hid : forall a, a ∈ ids t' -> a ∈ ids t \/ h_boxes (h_mem s) !! a = None).
  { intros a Ha. destruct L1 as [Hs|(c & E & Hc)].
    - left. eapply elem_of_submseteq; [exact Ha|]. by apply sublist_submseteq.
    - rewrite E in Ha. apply elem_of_app in Ha as [Ha|Ha]; [by left|].
      apply elem_of_list_singleton in Ha as ->. by right. }
  assert (Hout : forall j u a, i ≠ j -> h_threads s !! j = Some u -> a ∈ ids t' -> a ∉ ids u).
  { intros j u a Hne Hu Ha Ha'. destruct (Hid a Ha) as [Ho|Hn].
    - by apply (hi_disj _ _ HI i j t u a).
    - destruct (Hlive j u a Hu Ha') as [b Hb]. congruence. }
  split; cbn [h_threads h_mem].
  - rewrite insert_length. apply HI.
  - intros j u ch' Hu Hch'. destruct (decide (i = j)) as [<-|Hne].
    + rewrite list_lookup_insert in Hu by done. injection Hu as <-.
      rewrite Hch in Hch'. injection Hch' as <-. done.
    + rewrite list_lookup_insert_ne in Hu by done.
      destruct (hi_thread _ _ HI j u ch' Hu Hch') as [T1 T2 T3 T4].
      assert (Hdis : forall a, a ∈ ids u -> hbox_le (h_boxes (h_mem s) !! a) (h_boxes m' !! a)).
      { intros a Ha. apply L2. intros Ha'. by apply (hi_disj _ _ HI i j t u a Hne Ht Hu Ha'). }
      split; [done|done| |].
      * intros a own Hin. destruct (T3 a own Hin) as [Hs [id Hb]]. split; [done|]. exists id.
        apply Hdis; [|done]. apply ids_elem. eauto.
      * intros a Ho. apply Hdis; [apply ids_elem; by right|by apply T4].
  - intros j u Hu. destruct (decide (i = j)) as [<-|Hne].
    + rewrite list_lookup_insert in Hu by done. injection Hu as <-.
      pose proof (hi_ids _ _ HI i t Ht) as Hnd. destruct L1 as [Hs|(c & E & Hc)].
      * by eapply sublist_NoDup.
      * rewrite E. apply NoDup_app. split; [done|]. split; [|apply NoDup_singleton].
        intros a Ha Ha'. apply elem_of_list_singleton in Ha' as ->. destruct (Hlive _ _ _ Ht Ha). congruence.
    + rewrite list_lookup_insert_ne in Hu by done. by apply (hi_ids _ _ HI j u Hu).
  - intros j k u v a Hjk Hu Hv Ha.
    destruct (decide (i = j)) as [<-|Hne]; destruct (decide (i = k)) as [<-|Hne'].
    + done.
    + rewrite list_lookup_insert in Hu by done. injection Hu as <-.
      rewrite list_lookup_insert_ne in Hv by done. by apply (Hout k).
    + rewrite list_lookup_insert in Hv by done. injection Hv as <-.
      rewrite list_lookup_insert_ne in Hu by done. intros Ha2. by apply (Hout j u a).
    + rewrite list_lookup_insert_ne in Hu, Hv by done. by apply (hi_disj _ _ HI j k u v a).
  - intros p a Hp. destruct (L3 p a Hp) as [[Hp' Hc]|Hc].
    + destruct (hi_cells _ _ HI p a Hp') as (j & u & Hu & Hcl).
      destruct (decide (i = j)) as [<-|Hne].
      * rewrite Ht in Hu. injection Hu as <-. exists i, t'. rewrite list_lookup_insert by done.
        split; [done|]. destruct Hcl as [Hcl|Hpan]; [auto|right; auto].
      * exists j, u. by rewrite list_lookup_insert_ne.
    + exists i, t'. rewrite list_lookup_insert by done. auto.
  - done.
Qed.

Lemma h_set_state_spec st a m m' ok : h_set_state st a m = Some (m', ok) ->
  h_cells m' = h_cells m /\ h_sequence m' = h_sequence m /\
  exists b, h_boxes m !! a = Some b /\
    if ok then h_state b = 0%N /\ h_boxes m' = <[a := HBox (h_id b) st]> (h_boxes m) else m' = m.
Proof.
  unfold h_set_state. destruct (h_boxes m !! a) as [b|] eqn:Eb; [|done]. cbn.
  destruct (N.eqb_spec (h_state b) 0) as [E|Hne]; intros [= <- <-]; cbn; split_and!; eauto.
Qed.

Lemma h_set_state_le st a m m' ok c :
  h_set_state st a m = Some (m', ok) -> hbox_le (h_boxes m !! c) (h_boxes m' !! c).
Proof.
  intros (_ & _ & b & Hb & Hok)%h_set_state_spec. destruct ok; [|subst m'; apply hbox_le_refl].
  destruct Hok as [E ->]. destruct (decide (a = c)) as [<-|Hne].
  - rewrite lookup_insert, Hb. split; [|eauto]. intros id [= ->]. done.
  - rewrite lookup_insert_ne by done. apply hbox_le_refl.
Qed.

Lemma h_set_state_wf st a m m' ok : h_set_state st a m = Some (m', ok) -> wf m -> wf m'.
Proof.
  intros (_ & Hs & b & Hb & Hok)%h_set_state_spec [W1 W2 W3]. destruct ok; [|by subst m'; split].
  destruct Hok as [_ Hbx].
  assert (Hx : forall c y, h_boxes m' !! c = Some y -> exists y', h_boxes m !! c = Some y' /\ h_id y = h_id y').
  { intros c y. rewrite Hbx. intros [[<- <-]|[_ Hy]]%lookup_insert_Some; eauto. }
  split; rewrite ?Hs; [| |done].
  - intros c y Hy. destruct (Hx c y Hy) as (y' & Hy' & ->). eauto.
  - intros c d y z Hy Hz. destruct (Hx c y Hy) as (y' & Hy' & ->), (Hx d z Hz) as (z' & Hz' & ->). eauto.
Qed.

Lemma wf_boxes m m' : h_sequence m' = h_sequence m ->
  (forall a b, h_boxes m' !! a = Some b -> h_boxes m !! a = Some b) -> wf m -> wf m'.
Proof. intros Hs Hb [W1 W2 W3]. split; rewrite ?Hs; eauto. Qed.

Lemma h_ok_le ch m m' t x :
  (forall a, a ∈ ids t -> hbox_le (h_boxes m !! a) (h_boxes m' !! a)) ->
  h_ok m ch t -> pc_ok query ch x -> (owner x = owner (at_pc t) \/ owner x = None) ->
  h_ok m' ch (Thread x (todo t) (clusters t)).
Proof.
  intros Hb [T1 T2 T3 T4] Hx Ho. split; cbn [todo at_pc clusters]; [done|done| |].
  - intros a own Hin. destruct (T3 a own Hin) as [Hs [id Hbx]]. split; [done|]. exists id.
    apply Hb; [|done]. apply ids_elem. eauto.
  - intros a Ha. destruct Ho as [Ho|Ho]; [|congruence]. rewrite Ho in Ha.
    apply Hb; [apply ids_elem; by right|by apply T4].
Qed.

Lemma h_pos_step ch m m' t x :
  h_cells m' = h_cells m -> (forall a, hbox_le (h_boxes m !! a) (h_boxes m' !! a)) -> wf m' ->
  h_ok m ch t -> pc_ok query ch x -> owner x = owner (at_pc t) ->
  (forall a p, holds (at_pc t) a p -> holds x a p) -> at_pc t ≠ Panicked ->
  hlocal m t m' (Thread x (todo t) (clusters t)) /\ h_ok m' ch (Thread x (todo t) (clusters t)) /\ wf m'.
Proof.
  intros Hc Hb Hw Hok Hx Ho Hh Hp. split_and!; [|by apply (h_ok_le ch m); auto|done].
  split.
  - left. unfold ids. cbn [clusters at_pc]. by rewrite Ho.
  - auto.
  - intros p a. rewrite Hc. intros Hpa. left. split; [done|]. intros [Hcl|Hh']; left; [by left|right].
    cbn. eauto.
  - done.
Qed.

Lemma h_drops_eq (l : list (N * list P)) m : let m' := foldr (fun (x : N * list P) => h_drop x.1) m l in
  h_cells m' = h_cells m /\ h_sequence m' = h_sequence m /\
  (forall a, a ∉ l.*1 -> h_boxes m' !! a = h_boxes m !! a) /\
  (forall a b, h_boxes m' !! a = Some b -> h_boxes m !! a = Some b).
Proof.
  cbn zeta. induction l as [|[a own] l (IH1 & IH2 & IH3 & IH4)]; [done|]. cbn [foldr fst].
  unfold h_drop at 1 3 5 7. cbn. split_and!; [done|done| |].
  - intros c Hc. apply not_elem_of_cons in Hc as [Hne Hc]. rewrite lookup_delete_ne by done. by apply IH3.
  - intros c b Hb. apply lookup_delete_Some in Hb as [_ Hb]. eauto.
Qed.

Lemma h_unwind_ok ch m m1 t : h_cells m1 = h_cells m -> h_sequence m1 = h_sequence m ->
  (forall a, a ∉ ids t -> h_boxes m1 !! a = h_boxes m !! a) ->
  (forall a b, h_boxes m1 !! a = Some b -> h_boxes m !! a = Some b) -> wf m -> h_ok m ch t -> at_pc t ≠ Panicked ->
  hlocal m t (h_unwind t m1).1 (h_unwind t m1).2 /\ h_ok (h_unwind t m1).1 ch (h_unwind t m1).2 /\
  wf (h_unwind t m1).1.
Proof.
  intros Hc Hs Hb Hsub Hw Hok Hp. unfold h_unwind. cbn [fst snd].
  destruct (h_drops_eq (clusters t) m1) as (E1 & E2 & E3 & E4). rewrite Hc in E1. rewrite Hs in E2.
  split_and!.
  - split.
    + left. apply sublist_nil_l.
    + intros a Ha. rewrite E3, Hb; [apply hbox_le_refl|done|]. intros Hin. apply Ha. unfold ids. set_solver.
    + rewrite E1. intros p a Hpa. left. auto.
    + done.
  - destruct Hok as [T1 T2 T3 T4]. split; try done. intros a own Hin. by apply elem_of_nil in Hin.
  - apply (wf_boxes m); [exact E2| |done]. auto.
Qed.

Lemma h_local_ok m ch t m' t' x :
  step x m t = Some (m', t') -> h_ok m ch t -> wf m -> NoDup (ids t) ->
  hlocal m t m' t' /\ h_ok m' ch t' /\ wf m'.
Proof.
  intros Hst Hok Hw Hnd. destruct t as [y td cl]. unfold h_thread_step in Hst.
  cbn [at_pc todo clusters] in Hst.
  pose proof (h_pc _ _ _ Hok) as Hpc. cbn [at_pc] in Hpc.
  assert (Pos : forall m1 z, h_cells m1 = h_cells m -> (forall a, hbox_le (h_boxes m !! a) (h_boxes m1 !! a)) -> wf m1 ->
    pc_ok query ch z -> owner z = owner y -> (forall a p, holds y a p -> holds z a p) -> y ≠ Panicked ->
    hlocal m (Thread y td cl) m1 (Thread z td cl) /\ h_ok m1 ch (Thread z td cl) /\ wf m1).
  { intros m1 z H1 H2 H3 H4 H5 H6 H7. by apply (h_pos_step ch m m1 (Thread y td cl) z). }
  assert (Pos0 : forall z, pc_ok query ch z -> owner z = owner y -> (forall a p, holds y a p -> holds z a p) ->
    y ≠ Panicked -> hlocal m (Thread y td cl) m (Thread z td cl) /\ h_ok m ch (Thread z td cl) /\ wf m).
  { intros z H1 H2 H3 H4. apply Pos; auto using hbox_le_refl. }
  destruct y as [|qs acc|pts|a own rest i|a own pending k|a own rest i|a own p rest i c
    |a own p rest i c|a own p rest i c|a own p rest i c|a own|a own| |].
  - (* Next *)
    destruct td as [|p td]; [|destruct (h_cells m !! p) as [c|]; [|destruct (query p) as [found|] eqn:Eq]];
      injection Hst as <- <-.
    + by apply Pos0.
    + split_and!; [|destruct Hok as [T1 T2 T3 T4]; split; try done; cbn in *; set_solver|done].
      split; [left; done|auto using hbox_le_refl| |done]. intros q a Hq. left. auto.
    + split_and!; [| |done].
      * split; [left; done|auto using hbox_le_refl| |done]. intros q a Hq. left. auto.
      * destruct Hok as [T1 T2 T3 T4]. split; try done; cbn in *; [set_solver|].
        exists p, found. set_solver.
    + by apply (h_unwind_ok ch m m (Thread Next (p :: td) cl)).
  - (* Filter *)
    destruct qs as [|q qs].
    + destruct (min <=? length acc); injection Hst as <- <-; [|by apply Pos0].
      apply Pos0; try done. cbn in Hpc |- *. by rewrite app_nil_r in Hpc.
    + destruct (h_cells m !! q); injection Hst as <- <-; apply Pos0; try done; cbn.
      * by eapply from_seed_skip.
      * by apply from_seed_snoc.
  - (* Alloc *)
    pose proof (alloc_at_free x m) as Hfree. set (a := alloc_at x m) in *. clearbody a.
    injection Hst as <- <-. destruct Hw as [W1 W2 W3]. split_and!.
    + split; cbn [h_cells h_boxes h_sequence].
      * right. exists a. split; [|done]. unfold ids. cbn. by rewrite app_nil_r.
      * intros c _. destruct (decide (c = a)) as [->|Hne].
        -- rewrite Hfree. split; [done|]. intros [? ?]. done.
        -- rewrite lookup_insert_ne by done. apply hbox_le_refl.
      * intros p c Hp. left. split; [done|]. intros [Hc|[]]. left. by left.
      * done.
    + destruct Hok as [T1 T2 T3 T4]. split; cbn [todo at_pc clusters h_boxes owner]; [done|done| |].
      * intros c own Hin. destruct (T3 c own Hin) as [Hs [id Hb]]. split; [done|]. exists id.
        rewrite lookup_insert_ne; [done|]. intros <-. congruence.
      * intros c [= <-]. rewrite lookup_insert. eauto.
    + split; cbn [h_boxes h_sequence].
      * intros c b [[_ <-]|[_ Hb]]%lookup_insert_Some; cbn; [lia|]. specialize (W1 _ _ Hb). lia.
      * intros c d b b' [[<- <-]|[_ Hb]]%lookup_insert_Some [[<- <-]|[_ Hb']]%lookup_insert_Some E; cbn in E;
          [done|specialize (W1 _ _ Hb'); lia|specialize (W1 _ _ Hb); lia|eauto].
      * lia.
  - (* Check *)
    destruct rest as [|p rest].
    + injection Hst as <- <-. apply Pos0; try done. cbn in Hpc |- *. by rewrite app_nil_r in Hpc.
    + destruct (h_is ROLLED_BACK m a) as [rb|]; [|done]. cbn in Hst.
      destruct rb; injection Hst as <- <-; by apply Pos0.
  - (* Undo *)
    destruct pending as [|p pending].
    + destruct k as [[rest i]|]; injection Hst as <- <-; [by apply Pos0|].
      assert (Hcl : forall a' own', (a', own') ∈ cl -> a' ≠ a).
      { intros a' own' Hin ->. unfold ids in Hnd. cbn in Hnd. apply NoDup_app in Hnd as (_ & Hd & _).
        apply (Hd a); [apply elem_of_list_fmap; by exists (a, own')|by left]. }
      split_and!.
      * split; unfold h_drop; cbn [h_cells h_boxes].
        -- left. unfold ids. cbn. apply sublist_app; [done|]. apply sublist_nil_l.
        -- intros c Ho. rewrite lookup_delete_ne; [apply hbox_le_refl|]. intros <-. apply Ho. apply ids_elem. by right.
        -- intros p c Hp. left. split; [done|].
           intros [Hc|[_ Hh]]; [left; by left|]. cbn in Hh. by apply elem_of_nil in Hh.
        -- done.
      * destruct Hok as [T1 T2 T3 T4]. split; try done.
        cbn [clusters]. intros a' own' Hin. destruct (T3 a' own' Hin) as [Hs [id Hb]]. split; [done|]. exists id.
        unfold h_drop. cbn. rewrite lookup_delete_ne; [done|]. apply not_eq_sym. by eapply Hcl.
      * apply (wf_boxes m); [done| |done]. intros c b. unfold h_drop. cbn. by intros [_ Hb]%lookup_delete_Some.
    + injection Hst as <- <-.
      set (m1 := if decide (h_cells m !! p = Some a) then _ else m).
      assert (Hub : h_boxes m1 = h_boxes m /\ h_sequence m1 = h_sequence m).
      { unfold m1. by case_decide. }
      destruct Hub as [Hub Hus].
      assert (Huc : forall q a', h_cells m1 !! q = Some a' -> h_cells m !! q = Some a' /\ (q = p -> a' ≠ a)).
      { intros q a'. unfold m1. case_decide as E; cbn.
        - rewrite lookup_delete_Some. intros [Hne Hq]. split; [done|congruence].
        - intros Hq. split; [done|]. intros ->. congruence. }
      clearbody m1. split_and!.
      * split.
        -- left. done.
        -- intros a' _. rewrite Hub. apply hbox_le_refl.
        -- intros q a' Hq. apply Huc in Hq as [Hq Hne]. left. split; [done|].
           intros [Hc|Hh]; left; [by left|right]. cbn in Hh |- *. destruct k as [kk|]; [done|].
           destruct Hh as [-> Hin]. split; [done|]. apply elem_of_cons in Hin as [->|Hin]; [|done].
           exfalso. by apply Hne.
        -- done.
      * apply (h_ok_le ch m _ (Thread (Undo a own (p :: pending) k) td cl)); auto.
        intros a' _. rewrite Hub. apply hbox_le_refl.
      * apply (wf_boxes m); [exact Hus| |done]. intros c b. by rewrite Hub.
  - (* Assign *)
    destruct rest as [|p rest].
    + injection Hst as <- <-. apply Pos0; try done. cbn in Hpc |- *. by rewrite app_nil_r in Hpc.
    + destruct (h_cells m !! p) as [c|] eqn:Ep; injection Hst as <- <-; [by apply Pos0|].
      split_and!; [| |by apply (wf_boxes m)].
      * split; cbn [h_cells h_boxes h_sequence].
        -- left. done.
        -- intros a' _. apply hbox_le_refl.
        -- intros q a'. destruct (decide (q = p)) as [->|Hne].
           ** rewrite lookup_insert. intros [= <-]. right. right. cbn. split; [done|]. set_solver.
           ** rewrite lookup_insert_ne by done. intros Hq. left. split; [done|].
              intros [Hc|Hh]; left; [by left|right]. cbn in Hh |- *. set_solver.
        -- done.
      * apply (h_ok_le ch m _ (Thread (Assign a own (p :: rest) i) td cl)); auto using hbox_le_refl.
        cbn. by apply from_seed_snoc.
  - (* Conflict1 *)
    destruct (h_is COMMITTED m c) as [b|]; [|done]. cbn in Hst. destruct b; injection Hst as <- <-; by apply Pos0.
  - (* Conflict2 *)
    destruct (h_is ROLLED_BACK m c) as [b|]; [|done]. cbn in Hst.
    destruct b; [destruct (checks && (i =? 0))%bool|]; injection Hst as <- <-.
    + apply (h_unwind_ok ch m (h_drop a m) (Thread (Conflict2 a own p rest i c) td cl)); try done;
        unfold h_drop; cbn [h_boxes].
      * intros a' Ha'. rewrite lookup_delete_ne; [done|]. intros <-. apply Ha'. apply ids_elem. by right.
      * by intros a' b [_ Hb]%lookup_delete_Some.
    + apply Pos0; try done. cbn. by eapply from_seed_skip.
    + by apply Pos0.
  - (* Conflict3 *)
    destruct (h_boxes m !! c) as [b|]; [|done]. cbn in Hst. destruct (h_boxes m !! a) as [b'|]; [|done]. cbn in Hst.
    destruct (h_id b <? h_id b')%N; injection Hst as <- <-; by apply Pos0.
  - (* Conflict4 *)
    destruct (h_set_state ROLLED_BACK c m) as [[m1 ok]|] eqn:Er; [|done]. cbn in Hst.
    pose proof (fun a' => h_set_state_le _ _ _ _ _ a' Er) as Hb. pose proof (h_set_state_wf _ _ _ _ _ Er Hw) as Hw1.
    apply h_set_state_spec in Er as (Hc & Hs & _).
    destruct ok; injection Hst as <- <-.
    + apply Pos; auto; try done.
      * cbn. by apply from_seed_snoc.
      * cbn. intros a' q [-> Hin]. set_solver.
    + by apply Pos.
  - (* Fail *)
    destruct (h_set_state ROLLED_BACK a m) as [[m1 ok]|] eqn:Er; [|done]. cbn in Hst. injection Hst as <- <-.
    pose proof (fun a' => h_set_state_le _ _ _ _ _ a' Er) as Hb. pose proof (h_set_state_wf _ _ _ _ _ Er Hw) as Hw1.
    apply h_set_state_spec in Er as (Hc & Hs & _). by apply Pos.
  - (* Commit *)
    destruct (h_set_state COMMITTED a m) as [[m1 ok]|] eqn:Er; [|done]. cbn in Hst.
    pose proof (fun a' => h_set_state_le _ _ _ _ _ a' Er) as Hb. pose proof (h_set_state_wf _ _ _ _ _ Er Hw) as Hw1.
    apply h_set_state_spec in Er as (Hc & Hs & b0 & Hb0 & Hok').
    destruct ok; injection Hst as <- <-; [|by apply Pos].
    destruct Hok' as [_ Hbx]. split_and!; [| |done].
    + split.
      * left. unfold ids. cbn. rewrite app_nil_r, fmap_app. done.
      * auto.
      * rewrite Hc. intros q a' Hq. left. split; [done|]. intros [(own' & Hin & Hq')|[-> Hq']].
        -- left. left. exists own'. split; [|done]. cbn in *. set_solver.
        -- left. left. exists own. split; [|done]. cbn. set_solver.
      * done.
    + destruct Hok as [T1 T2 T3 T4]. split; try done.
      cbn [clusters]. intros a' own' [Hin|Hin]%elem_of_app.
      * destruct (T3 a' own' Hin) as [Hsd [id Hbx']]. split; [done|]. exists id. by apply Hb.
      * apply elem_of_list_singleton in Hin as [= -> ->]. split; [done|]. rewrite Hbx, lookup_insert. eauto.
  - (* Done *)
    injection Hst as <- <-. by apply Pos0.
  - (* Panicked *)
    injection Hst as <- <-. split_and!; [|done|done].
    split; [left; done|auto using hbox_le_refl| |done]. intros q a Hq. left. auto.
Qed.

Context (chunks : list (list P)).
Notation hrun l := (h_run query min checks (h_start query n chunks) l).

Lemma hinv_start : hinv chunks (h_start query n chunks).
Proof.
  pose proof (start_inv query (Memory ∅ ∅ n) chunks) as HI. split; cbn [h_start h_threads h_mem h_cells].
  - apply (i_len _ _ _ _ HI).
  - intros i t ch Ht Hch. destruct (i_thread _ _ _ _ HI i t ch Ht Hch) as [T1 T2 T3 T4]. cbn in T3, T4.
    split; [done|done| |].
    + intros a own Hin. destruct (T3 a own Hin) as [_ Hb]. by rewrite lookup_empty in Hb.
    + intros a Ho. destruct (T4 a Ho) as [st Hb]. by rewrite lookup_empty in Hb.
  - intros i t Ht. by destruct (i_ids _ _ _ _ HI i t Ht).
  - exact (i_disj _ _ _ _ HI).
  - intros p a Hp. by rewrite lookup_empty in Hp.
  - split; cbn; [intros a b Hb; by rewrite lookup_empty in Hb|intros a c b b' Hb; by rewrite lookup_empty in Hb|lia].
Qed.

Lemma hrun_inv l : hinv chunks (hrun l).
Proof.
  induction l as [|e l IH] using rev_ind; [apply hinv_start|].
  unfold h_run in *. rewrite fold_left_app. cbn [fold_left]. set (s := fold_left _ l _) in *. clearbody s.
  unfold h_step. destruct (h_undefined s); [done|]. destruct (h_threads s !! e.1) as [t|] eqn:Et; [|done].
  destruct (step e.2 (h_mem s) t) as [[m' t']|] eqn:Est.
  - destruct (lookup_lt_is_Some_2 chunks e.1) as [ch Hch].
    { rewrite <- (hi_len _ _ IH). by eapply lookup_lt_Some. }
    destruct (h_local_ok _ ch _ _ _ _ Est) as (L1 & L2 & L3);
      [by apply (hi_thread _ _ IH e.1)|apply IH|by apply (hi_ids _ _ IH e.1)|].
    by eapply hinv_step.
  - destruct IH. by split.
Qed.

(** ** Consequences *)
Lemma h_nodup s : hinv chunks s -> NoDup (concat (clusters <$> h_threads s)).*1.
Proof.
  intros HI.
  assert (E : (concat (clusters <$> h_threads s)).*1 = concat ((fun t => (clusters t).*1) <$> h_threads s)).
  { generalize (h_threads s) as ts. induction ts as [|t ts IH]; [done|]. cbn. by rewrite fmap_app, IH. }
  rewrite E. apply NoDup_concat_disjoint.
  - intros i l. rewrite list_lookup_fmap. intros (t & Ht & ->)%fmap_Some.
    pose proof (hi_ids _ _ HI i t Ht) as Hnd. unfold ids in Hnd. by apply NoDup_app in Hnd as [? _].
  - intros i j l k x Hne. rewrite !list_lookup_fmap.
    intros (t & Ht & ->)%fmap_Some (u & Hu & ->)%fmap_Some Hx Hx'.
    apply (hi_disj _ _ HI i j t u x Hne Ht Hu); unfold ids; apply elem_of_app; by left.
Qed.

Lemma h_returned s a own : hinv chunks s -> (a, own) ∈ concat (clusters <$> h_threads s) ->
  exists ch id, ch ∈ chunks /\ from_seed query ch own /\ h_boxes (h_mem s) !! a = Some (HBox id 1).
Proof.
  intros HI Hin. apply elem_of_list_In, in_concat in Hin as (l & Hl & Hin).
  apply elem_of_list_In in Hl, Hin. apply elem_of_list_fmap in Hl as (t & -> & Ht).
  apply elem_of_list_lookup in Ht as [i Hi]. destruct (lookup_lt_is_Some_2 chunks i) as [ch Hch].
  { rewrite <- (hi_len _ _ HI). by eapply lookup_lt_Some. }
  destruct (h_clusters _ _ _ (hi_thread _ _ HI i t ch Hi Hch) a own Hin) as [Hs [id Hb]].
  exists ch, id. split_and!; [by eapply elem_of_list_lookup_2|done|done].
Qed.

Lemma h_guarantees (Hnd : forall p found, query p = Some found -> NoDup found) l cs :
  h_result (hrun l) = Some cs ->
  NoDup cs.*1 /\
  (forall id own, (id, own) ∈ cs -> (n < id <= h_sequence (h_mem (hrun l)))%N /\ NoDup own /\
    exists ch p found, ch ∈ chunks /\ p ∈ ch /\ query p = Some found /\ own `sublist_of` found) /\
  (forall p a, h_cells (h_mem (hrun l)) !! p = Some a ->
    exists b own, h_boxes (h_mem (hrun l)) !! a = Some b /\ h_state b = COMMITTED /\ (h_id b, own) ∈ cs /\ p ∈ own).
Proof.
  pose proof (hrun_inv l) as HI. set (s := hrun l) in *. clearbody s. intros Hr. unfold h_result in Hr.
  destruct (forallb is_done (h_threads s)) eqn:Ed; [|done]. cbn in Hr. destruct (h_undefined s); [done|].
  cbn in Hr. injection Hr as <-.
  assert (Hlive : forall a own, (a, own) ∈ concat (clusters <$> h_threads s) ->
    exists id, h_boxes (h_mem s) !! a = Some (HBox id 1)).
  { intros a own Hin. destruct (h_returned s a own HI Hin) as (_ & id & _ & _ & Hb). eauto. }
  split_and!.
  - rewrite <- list_fmap_compose. pose proof (h_nodup s HI) as Hn.
    revert Hn Hlive. generalize (concat (clusters <$> h_threads s)) as L.
    induction L as [|[a own] L IH]; intros Hn Hlive; [constructor|]. cbn in Hn |- *.
    apply NoDup_cons in Hn as [Hna Hn]. constructor.
    + intros ([c own'] & E & Hin)%elem_of_list_fmap. apply Hna. cbn in E. unfold h_id_at in E.
      destruct (Hlive a own) as [id Hb]; [left|]. destruct (Hlive c own') as [id' Hb']; [by right|].
      rewrite Hb, Hb' in E. cbn in E. apply elem_of_list_fmap. exists (c, own'). split; [|done]. cbn.
      by apply (w_inj _ (hi_wf _ _ HI) a c _ _ Hb Hb').
    + apply IH; [done|]. intros c own' Hin. apply (Hlive c own'). by right.
  - intros id own ([a own'] & E & Hin)%elem_of_list_fmap. cbn in E. injection E as -> ->.
    destruct (h_returned s a own' HI Hin) as (ch & id & Hch & (p & f & Hp & Hf & Hs) & Hb).
    unfold h_id_at. rewrite Hb. cbn. split_and!.
    + apply (w_ids _ (hi_wf _ _ HI) _ _ Hb).
    + apply (w_ids _ (hi_wf _ _ HI) _ _ Hb).
    + exact (sublist_NoDup _ _ (Hnd p f Hf) Hs).
    + exists ch, p, f. done.
  - intros p a Hp. destruct (hi_cells _ _ HI p a Hp) as (i & t & Ht & Hc). rewrite forallb_forall in Ed.
    assert (Hd : is_done t = true) by (apply Ed, elem_of_list_In, elem_of_list_lookup; eauto).
    unfold is_done in Hd. destruct (at_pc t) eqn:Et; try done.
    destruct Hc as [[(own & Hin & Hpo)|Hh]|]; [|by rewrite Et in Hh|done].
    assert (Hcs : (a, own) ∈ concat (clusters <$> h_threads s)).
    { apply elem_of_list_In, in_concat. exists (clusters t).
      split; [|by apply elem_of_list_In]. apply elem_of_list_In, elem_of_list_fmap.
      exists t. split; [done|]. apply elem_of_list_lookup. eauto. }
    destruct (Hlive a own Hcs) as [id Hb]. exists (HBox id 1), own. split_and!; [done|done| |done].
    apply elem_of_list_fmap. exists (a, own). cbn. unfold h_id_at. by rewrite Hb.
Qed.

(** Unless a thread has panicked no pointer of a point leads to a freed box. *)
Lemma h_no_dangling l p a : (forall t, t ∈ h_threads (hrun l) -> at_pc t ≠ Panicked) ->
  h_cells (h_mem (hrun l)) !! p = Some a -> is_Some (h_boxes (h_mem (hrun l)) !! a).
Proof.
  pose proof (hrun_inv l) as HI. set (s := hrun l) in *. clearbody s. intros Hnp Hp.
  destruct (hi_cells _ _ HI p a Hp) as (i & t & Ht & [Hc|Hpan]).
  - destruct (lookup_lt_is_Some_2 chunks i) as [ch Hch].
    { rewrite <- (hi_len _ _ HI). by eapply lookup_lt_Some. }
    eapply h_ids_live; [by apply (hi_thread _ _ HI i)|]. apply ids_elem.
    destruct Hc as [(own & Hin & _)|Hh]; [left; eauto|right].
    destruct (at_pc t) as [|qs acc|pts|b own rest j|b own pending k|b own rest j|b own q rest j c
      |b own q rest j c|b own q rest j c|b own q rest j c|b own|b own| |]; try done; cbn in *;
      try (by destruct Hh as [-> _]). destruct k; by destruct Hh as [-> _].
  - by destruct (Hnp t); [eapply elem_of_list_lookup_2|].
Qed.

(** The addresses of a thread are live, except that of a conflicting cluster. *)
Lemma h_thread_addresses l t a : t ∈ h_threads (hrun l) -> a ∈ (clusters t).*1 ++ pc_addresses (at_pc t) ->
  is_Some (h_boxes (h_mem (hrun l)) !! a) \/
  exists a' own p rest i, at_pc t = Conflict1 a' own p rest i a \/ at_pc t = Conflict2 a' own p rest i a \/
    at_pc t = Conflict3 a' own p rest i a \/ at_pc t = Conflict4 a' own p rest i a.
Proof.
  pose proof (hrun_inv l) as HI. set (s := hrun l) in *. clearbody s. intros Ht Ha.
  apply elem_of_list_lookup in Ht as [i Ht]. destruct (lookup_lt_is_Some_2 chunks i) as [ch Hch].
  { rewrite <- (hi_len _ _ HI). by eapply lookup_lt_Some. }
  pose proof (h_ids_live _ _ _ a (hi_thread _ _ HI i t ch Ht Hch)) as Hl. unfold ids in Hl.
  apply elem_of_app in Ha as [Ha|Ha]; [left; apply Hl, elem_of_app; by left|].
  destruct (at_pc t) as [|qs acc|pts|b own rest j|b own pending k|b own rest j|b own q rest j c
    |b own q rest j c|b own q rest j c|b own q rest j c|b own|b own| |]; cbn in Ha; try (by apply elem_of_nil in Ha);
    try (left; apply Hl, elem_of_app; by right);
    (apply elem_of_cons in Ha as [-> | Ha]; [left; apply Hl, elem_of_app; right; by left|];
     apply elem_of_list_singleton in Ha as ->; right; exists b, own, q, rest, j; tauto).
Qed.
End Inv.
