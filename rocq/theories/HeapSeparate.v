(** In executions of separated chunks no box is freed. *)
From stdpp Require Import base list gmap.
From Coq Require Import NArith.
From Verif Require Import ListFacts Base ParallelClusterer ParallelClustererSeparate.
Local Open Scope nat_scope.

Section Separate.
Context {P : Type} `{Countable P}.
Context (query : P -> res (list P)) (min : nat) (checks : bool).
Notation memory := (memory P).

Definition kept (m : memory) : Prop := forall a b, boxes m !! a = Some b -> freed b = false.

Lemma kept_set_state st a (m m' : memory) r : kept m -> set_state_from_new st a m = Some (m', r) -> kept m'.
Proof.
  intros Hk. unfold set_state_from_new, deref. destruct (boxes m !! a) as [b|]; [|done]. cbn.
  destruct (freed b); [done|]. cbn. destruct (state b =? 0)%N; intros [= <- <-]; [|done].
  intros a' b'. unfold set_box. cbn. intros [[_ <-]|[_ Hb]]%lookup_insert_Some; [done|]. by eapply Hk.
Qed.

Lemma kept_step m ch total t m' t' :
  (forall p, p ∈ ch -> exists found, query p = Some found /\ NoDup found) ->
  fine query min m ch total t -> kept m ->
  thread_step query min checks m t = Some (m', t') -> kept m'.
Proof.
  intros Hq [_ Hp Htd _] Hk. destruct t as [x td cl]. cbn [at_pc todo clusters] in *.
  unfold thread_step. cbn [at_pc todo clusters].
  destruct x as [|qs acc|pts|a own rest i|a own pending k|a own rest i|a own p rest i c
    |a own p rest i c|a own p rest i c|a own p rest i c|a own|a own| |]; cbn [pc_fine] in Hp; try done.
  - destruct td as [|p td]; [by intros [= <- <-]|]. destruct (cells m !! p); [by intros [= <- <-]|].
    destruct (Hq p) as (f & -> & _); [apply Htd; left|]. by intros [= <- <-].
  - destruct qs as [|q qs]; [by destruct (min <=? _); intros [= <- <-]|].
    destruct (cells m !! q); by intros [= <- <-].
  - intros [= <- <-]. intros a b. cbn. intros [[_ <-]|[_ Hb]]%lookup_insert_Some; [done|]. by eapply Hk.
  - destruct Hp as (_ & _ & _ & Hb & _). destruct rest; [by intros [= <- <-]|].
    unfold is_rolled_back, deref. rewrite Hb. cbn. by intros [= <- <-].
  - destruct Hp as (_ & (_ & Hfr) & _). destruct rest as [|p rest]; [by intros [= <- <-]|].
    unfold assign_cluster. rewrite (Hfr p) by left. by intros [= <- <-].
  - destruct Hp as (_ & _ & Hb & _). unfold commit.
    destruct (set_state_from_new COMMITTED a m) as [[m1 r]|] eqn:E; [|done]. cbn.
    pose proof (kept_set_state _ _ _ _ _ Hk E).
    revert E. unfold set_state_from_new, deref. rewrite Hb. cbn. intros [= <- <-]. by intros [= <- <-].
  - by intros [= <- <-].
Qed.

Lemma kept_run (m0 : memory) (chunks : list (list P)) sched :
  (forall ch p, ch ∈ chunks -> p ∈ ch -> exists found, query p = Some found /\ NoDup found) ->
  separated query chunks -> kept m0 ->
  kept (mem (run_schedule query min checks (System m0 (cluster_slice_start query <$> chunks) false) sched)).
Proof.
  intros Hq Hsep H0. induction sched as [|i l IH] using rev_ind; [done|].
  unfold run_schedule in *. rewrite fold_left_app. cbn [fold_left].
  pose proof (run_sinv query min checks m0 chunks Hq Hsep l) as Hs. unfold run_schedule in Hs.
  set (s := fold_left _ l _) in *. clearbody s. unfold system_step.
  rewrite (s_def _ _ _ _ _ Hs). destruct (threads s !! i) as [t|] eqn:Et; [|done].
  destruct (lookup_lt_is_Some_2 chunks i) as [ch Hch].
  { rewrite <- (s_len _ _ _ _ _ Hs). by eapply lookup_lt_Some. }
  destruct (thread_step query min checks (mem s) t) as [[m' t']|] eqn:E; [|done]. cbn.
  eapply kept_step; [|by apply (s_fine _ _ _ _ _ Hs i ch)|exact IH|exact E].
  intros p. apply Hq. by eapply elem_of_list_lookup_2.
Qed.
End Separate.
