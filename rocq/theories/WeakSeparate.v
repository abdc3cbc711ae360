(** The parallel clusterer under relaxed memory when no point is similar to points of two chunks:
    nothing but interleavings. *)
From stdpp Require Import base list gmap.
From Coq Require Import NArith.
From Verif Require Import ListFacts Base ParallelClusterer SpecParallel ParallelClustererFacts
  ParallelClustererSingle ParallelClustererSeparate WeakClusterer WeakFacts WeakRaceFree.
Local Open Scope nat_scope.

Section Separate.
Context {P : Type} `{Countable P}.
Context (query : P -> res (list P)) (min : nat) (checks : bool) (m0 : memory P) (chunks : list (list P)).
Context (Hq : forall ch p, ch ∈ chunks -> p ∈ ch -> exists found, query p = Some found /\ NoDup found).
Context (Hsep : separated query chunks).
Notation weak := (weak P).
Notation weak_thread_step := (weak_thread_step query min checks).
Notation weak_step := (weak_step query min checks).
Notation weak_run := (weak_run query min checks).
Notation thread_step := (thread_step query min checks).
Notation system_step := (system_step query min checks).
Notation run_schedule := (run_schedule query min checks).
Notation sinv := (sinv query min m0 chunks).
Notation s0 := (System m0 (cluster_slice_start query <$> chunks) false).
Implicit Types (w : weak) (t : thread P) (x p : P).

(** Every thread knows the newest values of the points that matter to it. *)
Record known w : Prop := {
  k_len : length (views w) = length (threads (w_sys w));
  k_view : forall i ch x, chunks !! i = Some ch -> near query ch x -> view w i x = length (earlier w x);
}.

Lemma looks_near m ch total t p : fine query min m ch total t -> looks_at t = Some p -> near query ch p.
Proof.
  intros [_ Hp Htd _] Hl. unfold looks_at in Hl.
  destruct (at_pc t) as [|qs acc|pts|a own rest k|a own pending k|a own rest k|a own q rest k c
    |a own q rest k c|a own q rest k c|a own q rest k c|a own|a own| |]; try done.
  - destruct (todo t) as [|q td]; [done|]. injection Hl as ->. exists p. split; [apply Htd; left|by left].
  - destruct qs as [|q qs]; [done|]. injection Hl as ->.
    destruct Hp as (_ & _ & q & found & pre & H1 & H2 & -> & _). eapply near_found; [done|done|set_solver].
  - destruct rest as [|q rest]; [done|]. injection Hl as ->.
    destruct Hp as (_ & _ & _ & _ & _ & q & found & H1 & H2 & H3). eapply near_found; [done|done|]. apply H3. set_solver.
Qed.

Lemma sep_thread w i t ch j : sinv (w_sys w) -> known w -> threads (w_sys w) !! i = Some t -> chunks !! i = Some ch ->
  old_value w i t j = None /\ weak_thread_step w i t j = thread_step (mem (w_sys w)) t.
Proof.
  intros HS HK Ht Hch. pose proof (s_fine _ _ _ _ _ HS i ch t Hch Ht) as Hf.
  assert (Ho : old_value w i t j = None).
  { destruct (old_value w i t j) as [[p v]|] eqn:E; [|done].
    apply old_value_looks in E as (Hl & Hv & He & _). exfalso.
    rewrite (k_view _ HK i ch p Hch (looks_near _ _ _ _ _ Hf Hl)) in Hv. apply lookup_lt_Some in He. lia. }
  split; [done|]. destruct (old_state t j) as [c|] eqn:Es; [|by apply weak_newest].
  unfold WeakClusterer.weak_thread_step, seen. rewrite Ho, Es.
  pose proof (f_pc _ _ _ _ _ _ Hf) as Hp. unfold old_state in Es. destruct (j =? 0); [|done].
  destruct t as [x td cl]. cbn [at_pc] in *.
  destruct x as [|qs acc|pts|a own [|q rest] k|a own pending k|a own rest k|a own q rest k c'
    |a own q rest k c'|a own q rest k c'|a own q rest k c'|a own|a own| |]; try done.
  injection Es as ->. destruct Hp as (_ & _ & _ & Hb & _). rewrite Hb. cbn [freed].
  assert (E : set_box c (Box 0 false) (mem (w_sys w)) = mem (w_sys w)).
  { unfold set_box. rewrite insert_id by done. by destruct (mem (w_sys w)). }
  rewrite E. unfold ParallelClusterer.thread_step. cbn [at_pc todo clusters]. unfold is_rolled_back, deref. by rewrite Hb.
Qed.

Lemma sep_step w i j : sinv (w_sys w) -> known w ->
  w_sys (weak_step w (i, j)) = system_step (w_sys w) i /\ known (weak_step w (i, j)).
Proof.
  intros HS HK. pose proof (s_def _ _ _ _ _ HS) as Hu.
  unfold WeakClusterer.weak_step, ParallelClusterer.system_step. rewrite Hu.
  destruct (threads (w_sys w) !! i) as [t|] eqn:Ht; [|done].
  destruct (lookup_lt_is_Some_2 chunks i) as [ch Hch].
  { rewrite <- (s_len _ _ _ _ _ HS). by eapply lookup_lt_Some. }
  destruct (sep_thread w i t ch j HS HK Ht Hch) as [Ho Hs]. rewrite Hs.
  pose proof (s_fine _ _ _ _ _ HS i ch t Hch Ht) as Hf.
  destruct (fine_step query min checks (mem (w_sys w)) ch (start_plan query min m0 ch) t) as (m' & t' & Est & Hf' & Hm); [|exact Hf|].
  { intros p. apply Hq. by eapply elem_of_list_lookup_2. }
  rewrite Est.
  assert (Hi : i < length (views w)) by (rewrite (k_len _ HK); by eapply lookup_lt_Some).
  destruct (changed (mem (w_sys w)) m' t) as [p|] eqn:Ec.
  - split; [done|]. split.
    + cbn. unfold set_view. rewrite alter_length, insert_length. apply HK.
    + intros k ch' x Hk Hx. rewrite view_set by done.
      assert (He : forall y, earlier (Weak (System m' (<[i:=t']> (threads (w_sys w))) false)
        (<[p:=earlier w p ++ [cells (mem (w_sys w)) !! p]]> (past w))
        (set_view i p (length (earlier w p) + 1) (views w))) y = if decide (y = p) then earlier w p ++ [cells (mem (w_sys w)) !! p] else earlier w y).
      { intros y. unfold earlier. cbn [past]. destruct (decide (y = p)) as [->|Hy]; [by rewrite lookup_insert|by rewrite lookup_insert_ne]. }
      rewrite He. destruct (decide (x = p)) as [->|Hne].
      * destruct (decide (k = i)) as [->|Hki].
        -- rewrite decide_True by done. rewrite app_length. done.
        -- exfalso. unfold changed in Ec. destruct (writes_cell t) as [q|]; [|done]. cbn in Ec.
           destruct (decide (cells (mem (w_sys w)) !! q = cells m' !! q)) as [|Hd]; [done|]. injection Ec as ->.
           destruct (d_cells _ _ _ _ _ _ Hm p (not_eq_sym Hd)) as (_ & q & found & H1 & H2 & H3).
           exact (Hsep k i ch' ch p q found Hki Hk Hch Hx H1 H2 H3).
      * rewrite decide_False by naive_solver. by apply (k_view _ HK k ch').
  - destruct (looks_at t) as [p|] eqn:El; (split; [done|]).
    + split.
      * cbn. unfold set_view. rewrite alter_length, insert_length. apply HK.
      * intros k ch' x Hk Hx. rewrite view_set by done.
        change (earlier _ x) with (earlier w x). destruct (decide (k = i /\ x = p)) as [[-> ->]|_]; [|by apply (k_view _ HK k ch')].
        unfold position. by rewrite Ho.
    + split; [cbn; rewrite insert_length; apply HK|]. apply HK.
Qed.

Lemma sep_run w l : sinv (w_sys w) -> known w -> w_sys (weak_run w l) = run_schedule (w_sys w) l.*1.
Proof.
  revert w. induction l as [|[i j] l IH]; intros w HS HK; [done|].
  destruct (sep_step w i j HS HK) as [E HK'].
  change (weak_run w ((i, j) :: l)) with (weak_run (weak_step w (i, j)) l).
  rewrite IH; [by rewrite E| |done]. rewrite E. by apply (sinv_step query min checks m0 chunks Hq).
Qed.

Lemma sep_same l : w_sys (weak_run (weak_start s0) l) = run_schedule s0 l.*1.
Proof.
  apply sep_run.
  - by apply sinv_start.
  - split; [unfold weak_start; cbn [views]; by rewrite replicate_length|].
    intros i ch x _ _. unfold view, earlier, weak_start. cbn [views past]. rewrite lookup_empty. cbn.
    destruct (replicate _ _ !! i) as [v|] eqn:E; cbn [default].
    + apply lookup_replicate in E as [-> _]. change (default 0 ((∅ : gmap P nat) !! x) = 0). by rewrite lookup_empty.
    + change (default 0 ((∅ : gmap P nat) !! x) = 0). by rewrite lookup_empty.
Qed.
End Separate.
