(** Schedule independence of the parallel loops of Par.v. *)
From stdpp Require Import list.
From Verif Require Import Base Par.

Section Facts.
Context {S I : Type} (body : I -> S -> option S).
Local Notation seq_loop := (seq_loop body).
Local Notation task_step := (task_step body).
Local Notation par_steps := (par_steps body).

(** [t] is a state reachable when running [items] from [s]. *)
Definition on_track (items : list I) (s : S) (t : task S I) : Prop :=
  exists k, k <= length items /\
    seq_loop (take k items) s = (t_state t, t_dead t) /\
    t_todo t = drop k items /\
    (t_dead t = true -> 0 < k).

Lemma seq_loop_app l1 l2 s :
  seq_loop (l1 ++ l2) s =
  (let r := seq_loop l1 s in if r.2 then r else seq_loop l2 r.1).
Proof.
  revert s. induction l1 as [|x l1 IH]; intros s; simpl; [done|].
  destruct (body x s); [apply IH|done].
Qed.

Lemma on_track_step items s t : on_track items s t -> on_track items s (task_step t).
Proof.
  intros (k & Hk & Hrun & Htodo & Hd). unfold Par.task_step.
  destruct (t_dead t) eqn:Ed.
  { exists k. rewrite Ed. auto. }
  destruct (t_todo t) as [|x rest] eqn:Et.
  { exists k. rewrite Et, Ed. auto. }
  assert (Hx : items !! k = Some x).
  { rewrite <- (Nat.add_0_r k), <- lookup_drop, <- Htodo. done. }
  assert (Hrest : drop (Datatypes.S k) items = rest).
  { rewrite <- Nat.add_1_r, <- drop_drop, <- Htodo. done. }
  assert (k < length items) by (eapply lookup_lt_Some; eauto).
  exists (Datatypes.S k). split; [lia|].
  rewrite (take_S_r _ _ _ Hx), seq_loop_app, Hrun. simpl.
  destruct (body x (t_state t)) as [s'|]; simpl; repeat split; auto; lia.
Qed.

Lemma par_steps_track sched items states ts :
  Forall2 (on_track items) states ts ->
  Forall2 (on_track items) states (par_steps sched ts).
Proof.
  revert ts. unfold Par.par_steps. induction sched as [|i sched IH]; intros ts H; simpl; [done|].
  apply IH. apply Forall2_same_length_lookup in H as [Hlen H].
  apply Forall2_same_length_lookup. split; [by rewrite alter_length|].
  intros j s t Hs. destruct (decide (i = j)) as [->|Hne].
  - rewrite list_lookup_alter. intros (t' & Ht' & ->)%fmap_Some. apply on_track_step; eauto.
  - rewrite list_lookup_alter_ne by done. eauto.
Qed.

Lemma par_steps_init sched items states :
  Forall2 (on_track items) states
    (par_steps sched ((fun s => Task s items false) <$> states)).
Proof.
  apply par_steps_track. apply Forall2_fmap_r, Forall_Forall2_diag, Forall_true.
  intros s. exists 0. simpl. repeat split; auto; lia.
Qed.

Lemma on_track_dead items s t :
  on_track items s t -> t_dead t = true -> (seq_loop items s).2 = true.
Proof.
  intros (k & _ & Hrun & _ & _) Hd. rewrite <- (take_drop k items), seq_loop_app, Hrun.
  simpl. by rewrite Hd.
Qed.

Lemma on_track_finish items s t :
  on_track items s t -> t_dead t = false -> task_finish body t = seq_loop items s.
Proof.
  intros (k & _ & Hrun & Htodo & _) Hd. unfold task_finish. rewrite Hd, Htodo.
  rewrite <- (take_drop k items) at 2. rewrite seq_loop_app, Hrun. simpl. by rewrite Hd.
Qed.

(** Whether the loop panics does not depend on the schedule. *)
Lemma par_for_each_panic sched items states :
  (par_for_each body sched items states).2 =
  existsb (fun s => (seq_loop items s).2) states.
Proof.
  unfold par_for_each. pose proof (par_steps_init sched items states) as H.
  set (ts := par_steps _ _) in *. clearbody ts.
  destruct (existsb t_dead ts) eqn:E; simpl.
  - symmetry. apply existsb_exists. apply existsb_exists in E as (t & Ht & Hd).
    apply elem_of_list_In, elem_of_list_lookup in Ht as [i Ht].
    destruct (Forall2_lookup_r _ _ _ _ _ H Ht) as (s & Hs & Htr).
    exists s. split; [eapply elem_of_list_In, elem_of_list_lookup_2; eauto|].
    eapply on_track_dead; eauto.
  - induction H as [|s t ss ts Ht H IH]; [done|].
    simpl in E |- *. apply orb_false_iff in E as [E1 E2].
    rewrite (on_track_finish _ _ _ Ht E1). f_equal. auto.
Qed.

(** Without a panic the final states are those of the sequential loops. *)
Lemma par_for_each_ok sched items states :
  (par_for_each body sched items states).2 = false ->
  (par_for_each body sched items states).1 = (fun s => (seq_loop items s).1) <$> states.
Proof.
  unfold par_for_each. pose proof (par_steps_init sched items states) as H.
  set (ts := par_steps _ _) in *. clearbody ts.
  destruct (existsb t_dead ts) eqn:E; simpl; [done|intros _].
  induction H as [|s t ss ts Ht H IH]; [done|].
  simpl in E |- *. apply orb_false_iff in E as [E1 E2].
  rewrite (on_track_finish _ _ _ Ht E1). f_equal. auto.
Qed.

(** In all cases each task has run a prefix of its loop. *)
Lemma par_for_each_prefix sched items states :
  Forall2 (fun s s' => exists k, s' = (seq_loop (take k items) s).1)
    states (par_for_each body sched items states).1.
Proof.
  unfold par_for_each. pose proof (par_steps_init sched items states) as H.
  set (ts := par_steps _ _) in *. clearbody ts.
  destruct (existsb t_dead ts) eqn:E; simpl.
  - clear E. apply Forall2_fmap_r. eapply Forall2_impl; [exact H|].
    intros s t (k & _ & Hrun & _). exists k. by rewrite Hrun.
  - induction H as [|s t ss ts Ht H IH]; [constructor|].
    simpl in E |- *. apply orb_false_iff in E as [E1 E2].
    constructor; [|auto]. exists (length items). rewrite take_ge by lia.
    by rewrite (on_track_finish _ _ _ Ht E1).
Qed.

(** A body that never panics under an invariant: the loop is a plain fold. *)
Lemma seq_loop_total (P : S -> Prop) (f : I -> S -> S) items s :
  (forall x s, x ∈ items -> P s -> body x s = Some (f x s) /\ P (f x s)) ->
  P s ->
  seq_loop items s = (fold_left (fun s x => f x s) items s, false).
Proof.
  revert s. induction items as [|x items IH]; intros s Hf Hs; simpl; [done|].
  destruct (Hf x s) as [-> Hs']; [left|done|]. apply IH; [|done].
  intros y t Hy. apply Hf. by right.
Qed.

Lemma par_for_each_total (P : S -> Prop) (f : I -> S -> S) sched items states :
  (forall x s, x ∈ items -> P s -> body x s = Some (f x s) /\ P (f x s)) ->
  Forall P states ->
  par_for_each body sched items states =
  ((fun s => fold_left (fun s x => f x s) items s) <$> states, false).
Proof.
  intros Hf HP.
  assert (Hn : (par_for_each body sched items states).2 = false).
  { rewrite par_for_each_panic. apply not_true_iff_false. intros (s & Hs & Hp)%existsb_exists.
    apply elem_of_list_In in Hs. rewrite Forall_forall in HP.
    erewrite seq_loop_total in Hp by eauto. done. }
  rewrite (surjective_pairing (par_for_each _ _ _ _)), Hn, par_for_each_ok by done.
  f_equal. apply list_fmap_ext. intros i s Hs.
  erewrite seq_loop_total; [done|eauto|]. rewrite Forall_forall in HP.
  apply HP. eapply elem_of_list_lookup_2; eauto.
Qed.
End Facts.

Section MapFacts.
Context {A B : Type} (f : A -> res B).

(** The parallel map is [mapM] for every schedule: same order, and a panic exactly when one
    of the calls panics. *)
Lemma par_map_mapM sched items : par_map f sched items = mapM f items.
Proof.
  unfold par_map.
  destruct (par_for_each _ _ _ _) as [slots p] eqn:E.
  pose proof (par_for_each_panic (map_slot f) sched [tt] ((fun x => (x, None)) <$> items)) as Hp.
  rewrite E in Hp. simpl in Hp.
  destruct p.
  - symmetry in Hp. apply existsb_exists in Hp as (s & Hs & Hd).
    apply elem_of_list_In, elem_of_list_fmap in Hs as (x & -> & Hx).
    unfold map_slot in Hd. simpl in Hd.
    destruct (f x) eqn:Ef; [done|]. symmetry. apply eq_None_not_Some.
    intros [ys Hys]. apply mapM_Some in Hys.
    apply elem_of_list_lookup in Hx as [i Hi].
    destruct (Forall2_lookup_l _ _ _ _ _ Hys Hi) as (y & _ & Hy). congruence.
  - pose proof (par_for_each_ok (map_slot f) sched [tt] ((fun x => (x, None)) <$> items)) as Ho.
    rewrite E in Ho. simpl in Ho. rewrite Ho by done. clear E Ho.
    rewrite <- list_fmap_compose.
    induction items as [|x items IH]; [done|].
    simpl in Hp. symmetry in Hp. apply orb_false_iff in Hp as [H1 H2].
    specialize (IH (eq_sym H2)). rewrite fmap_cons. simpl. rewrite IH. clear IH.
    unfold map_slot in H1 |- *. simpl in H1 |- *.
    destruct (f x) eqn:Ef; done.
Qed.
End MapFacts.
