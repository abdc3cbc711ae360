(** Attempts of HeapClusterer.v, whatever addresses the allocator gives. *)
From stdpp Require Import base list gmap.
From Coq Require Import NArith Lia.
From Verif Require Import ListFacts Base ParallelClusterer SpecAttempts ParallelClustererFacts HeapClusterer SpecHeap HeapFacts HeapInv AttemptFacts.
Local Open Scope nat_scope.

Section Facts.
Context {P : Type} `{Countable P}.
Context (query : P -> res (list P)) (min : nat) (checks : bool) (n : N) (chunks : list (list P)).
Notation heap := (heap P).
Notation thread := (thread P).
Notation h_system := (h_system (P := P)).
Notation step := (h_thread_step query min checks).
Notation hrun l := (h_run query min checks (h_start query n chunks) l).
Implicit Types (m : heap) (t : thread) (s : h_system) (a c : N) (p : P).

Definition live m a : Prop := is_Some (h_boxes m !! a).
(** A step: what is live after it belongs to the thread, or was live before and not the thread's. *)
Definition tidy m t m' t' : Prop :=
  (forall a, live m' a -> a ∈ ids t' \/ (live m a /\ a ∉ ids t)) /\
  (h_sequence m' + N.of_nat (spare t') <= h_sequence m + N.of_nat (spare t))%N /\ room t' <= room t.

Lemma tidy_same m t m' t' : (forall a, live m' a -> live m a) -> (forall a, a ∈ ids t -> a ∈ ids t') ->
  h_sequence m' = h_sequence m -> spare t' <= spare t -> room t' <= room t -> tidy m t m' t'.
Proof.
  intros H1 H2 H3 H4 H5. split; [|split; [lia|done]]. intros a Ha. destruct (decide (a ∈ ids t)); auto.
Qed.
Lemma drops_live m (cl : list (N * list P)) a : live (foldr (fun (x : N * list P) => h_drop x.1) m cl) a -> live m a /\ a ∉ cl.*1.
Proof.
  induction cl as [|x cl IH]; cbn [foldr fmap list_fmap]; [intros Ha; split; [done|by intros ?%elem_of_nil]|].
  unfold live, h_drop at 1. cbn. intros [b Hb]. apply lookup_delete_Some in Hb as [Hne Hb].
  destruct IH as [I1 I2]; [by exists b|]. split; [done|]. apply not_elem_of_cons. done.
Qed.
Lemma state_live st a m m1 ok : h_set_state st a m = Some (m1, ok) -> h_sequence m1 = h_sequence m /\ forall c, live m1 c -> live m c.
Proof.
  unfold h_set_state. destruct (h_boxes m !! a) as [b|] eqn:E; [|done]. cbn.
  destruct (h_state b =? 0)%N; intros [= <- <-]; [|done]. split; [done|]. unfold live. cbn. intros c.
  destruct (decide (a = c)) as [->|Hne]; [rewrite E; eauto|by rewrite lookup_insert_ne].
Qed.

Lemma step_tidy x m t m' t' : step x m t = Some (m', t') -> tidy m t m' t'.
Proof.
  intros Hst. destruct t as [y td cl]. unfold h_thread_step in Hst. cbn [at_pc todo clusters] in *.
  destruct y as [|qs acc|pts|b own rest i|b own pending k|b own rest i|b own p rest i c
    |b own p rest i c|b own p rest i c|b own p rest i c|b own|b own| |].
  - destruct td as [|p td]; [injection Hst as <- <-; apply tidy_same; cbn; auto|].
    destruct (h_cells m !! p); [injection Hst as <- <-; apply tidy_same; unfold spare, room; cbn; auto with lia; lia|].
    destruct (query p) as [found|]; injection Hst as <- <-; [apply tidy_same; unfold spare, room; cbn; auto with lia; lia|].
    split; [|destruct (h_drops_eq cl m) as (_ & -> & _); unfold spare, room; cbn; split; lia].
    intros a Ha. right. destruct (drops_live _ _ _ Ha) as [L1 L2]. split; [done|]. unfold ids. cbn. rewrite app_nil_r. done.
  - destruct qs as [|q qs]; [destruct (min <=? length acc)|destruct (h_cells m !! q)]; injection Hst as <- <-;
      apply tidy_same; unfold spare, room; cbn; auto with lia; lia.
  - injection Hst as <- <-. split; [|unfold spare, room; cbn; lia]. intros a [z Hz]. cbn in Hz.
    apply lookup_insert_Some in Hz as [[<- _]|[_ Hz]]; [left; apply ids_elem; by right|].
    destruct (decide (a ∈ ids (Thread (Alloc pts) td cl))) as [Hin|Hno]; [|right; split; [by exists z|done]].
    left. apply ids_elem in Hin as [Ho|Ho]; [|done]. apply ids_elem. by left.
  - destruct rest as [|p rest]; [injection Hst as <- <-; apply tidy_same; unfold spare, room; cbn; auto with lia|].
    destruct (h_is ROLLED_BACK m b) as [[]|]; [| |done]; injection Hst as <- <-; apply tidy_same; unfold spare, room; cbn; auto with lia.
  - destruct pending as [|p pending]; [destruct k as [[rest i]|]|]; injection Hst as <- <-.
    + apply tidy_same; unfold spare, room; cbn; auto with lia.
    + split; [|unfold spare, room; cbn; lia]. intros a [z Hz]. cbn in Hz. apply lookup_delete_Some in Hz as [Hne Hz].
      destruct (decide (a ∈ cl.*1)) as [Hin|Hno].
      * left. unfold ids. cbn. apply elem_of_app. by left.
      * right. split; [by exists z|]. unfold ids. cbn. rewrite elem_of_app, elem_of_list_singleton. by intros [?|?].
    + apply tidy_same; [|by auto| |unfold spare, room; cbn; lia..]; destruct (decide _); cbn; auto.
  - destruct rest as [|p rest]; [injection Hst as <- <-; apply tidy_same; unfold spare, room; cbn; auto with lia|].
    destruct (h_cells m !! p) as [c|]; injection Hst as <- <-; apply tidy_same; unfold spare, room; cbn; auto with lia.
  - destruct (h_is COMMITTED m c) as [[]|]; [| |done]; injection Hst as <- <-; apply tidy_same; unfold spare, room; cbn; auto with lia.
  - destruct (h_is ROLLED_BACK m c) as [[]|]; [destruct (checks && (i =? 0))%bool| |done]; injection Hst as <- <-;
      [|apply tidy_same; unfold spare, room; cbn; auto with lia..].
    split; [|destruct (h_drops_eq cl (h_drop b m)) as (_ & -> & _); unfold spare, room; cbn; split; lia].
    intros a Ha. right. destruct (drops_live _ _ _ Ha) as [[z Hz] L2]. cbn in Hz. apply lookup_delete_Some in Hz as [Hne Hz].
    split; [by exists z|]. unfold ids. cbn. rewrite elem_of_app, elem_of_list_singleton. by intros [?|?].
  - destruct (h_boxes m !! c); [|done]. destruct (h_boxes m !! b); [|done]. cbn in Hst.
    destruct (h_id _ <? h_id _)%N; injection Hst as <- <-; apply tidy_same; unfold spare, room; cbn; auto with lia.
  - destruct (h_set_state ROLLED_BACK c m) as [[m1 ok]|] eqn:Er; [|done]. cbn in Hst. destruct (state_live _ _ _ _ _ Er) as [S1 S2].
    destruct ok; injection Hst as <- <-; apply tidy_same; unfold spare, room; cbn; auto with lia.
  - destruct (h_set_state ROLLED_BACK b m) as [[m1 ok]|] eqn:Er; [|done]. cbn in Hst. destruct (state_live _ _ _ _ _ Er) as [S1 S2].
    injection Hst as <- <-; apply tidy_same; unfold spare, room; cbn; auto with lia.
  - destruct (h_set_state COMMITTED b m) as [[m1 ok]|] eqn:Er; [|done]. cbn in Hst. destruct (state_live _ _ _ _ _ Er) as [S1 S2].
    destruct ok; injection Hst as <- <-; apply tidy_same; auto; unfold spare, room; cbn; rewrite ?app_length; cbn; try lia.
    intros a. unfold ids. cbn. rewrite fmap_app, app_nil_r. done.
  - injection Hst as <- <-; apply tidy_same; unfold spare, room; cbn; auto with lia.
  - injection Hst as <- <-; apply tidy_same; unfold spare, room; cbn; auto with lia.
Qed.

Lemma heap_attempts l :
  (forall a, live (h_mem (hrun l)) a -> exists i t, h_threads (hrun l) !! i = Some t /\ a ∈ ids t) /\
  (h_sequence (h_mem (hrun l)) + N.of_nat (sum_list (spare <$> h_threads (hrun l))) <= n + N.of_nat (length (concat chunks)))%N /\
  forall i t ch, h_threads (hrun l) !! i = Some t -> chunks !! i = Some ch -> room t <= length ch.
Proof.
  induction l as [|e l (I1 & I2 & I3)] using rev_ind.
  - split_and!; cbn.
    + intros a [b Hb]. cbn in Hb. by rewrite lookup_empty in Hb.
    + assert (E : spare <$> (cluster_slice_start query <$> chunks) = length <$> chunks).
      { rewrite <- list_fmap_compose. apply list_fmap_ext. intros j ch _. apply (start_spare query). }
      rewrite E, length_concat_sum. lia.
    + intros i t ch Ht Hch. rewrite list_lookup_fmap, Hch in Ht. cbn in Ht. injection Ht as <-.
      destruct (start_spare query ch) as [_ ->]. done.
  - unfold h_run in *. rewrite fold_left_app. cbn [fold_left]. set (s := fold_left _ l _) in *. clearbody s.
    unfold h_step. destruct (h_undefined s); [done|]. destruct (h_threads s !! e.1) as [t|] eqn:Et; [|done].
    destruct (step e.2 (h_mem s) t) as [[m' t']|] eqn:Est; [|done]. cbn [h_mem h_threads].
    destruct (step_tidy _ _ _ _ _ Est) as (T1 & T2 & T3).
    assert (Hi : <[e.1 := t']> (h_threads s) !! e.1 = Some t') by (apply list_lookup_insert; by eapply lookup_lt_Some).
    split_and!.
    + intros a Ha. destruct (T1 a Ha) as [Hin|[Hl Hno]]; [eauto|]. destruct (I1 a Hl) as (i & u & Hu & Hin). exists i, u.
      split; [|done]. rewrite list_lookup_insert_ne; [done|]. intros <-. rewrite Et in Hu. injection Hu as ->. done.
    + pose proof (sum_insert spare (h_threads s) e.1 t t' Et). lia.
    + intros i u ch Hu Hch. apply list_lookup_insert_Some in Hu as [(<- & -> & _)|[_ Hu]]; [|eauto].
      pose proof (I3 _ _ _ Et Hch). lia.
Qed.
End Facts.
