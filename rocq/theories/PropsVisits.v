(** Property C108: what a query of a MinHash index costs after any history. [visits] counts the entries of
    buckets that a query goes through, [evaluations] the similarities it computes (SpecVisits.v). *)
From stdpp Require Import base list gmap fin_maps fin_sets.
From Coq Require Import NArith Lia.
From Verif Require Import Base Float Container MinHashIndex SpecIndex SpecHistory SpecHistoryQuery
  MinHashIndexFacts2 MinHashIndexThms ExampleIndex HistoryFacts TableFacts SpecVisits VisitFacts.
Local Open Scope nat_scope.

(** The entries visited, from what the calls say about each id ever offered. *)
Theorem C108_visits {T} `{!EqDecision T} {Id} `{Countable Id} (k : container_kind) (bh : list T -> N) (nb bw : nat)
    (th : f64) (ops : list (op Id T)) (q : list T) (all : list Id) :
  whole (nb * bw) ops -> length q = nb * bw -> NoDup all -> (forall x, x ∈ offers ops -> x ∈ all) ->
  visits (container k Id) bh (after k bh nb bw th ops) q =
    Some (sum_list ((fun i => sum_list ((fun x => marks k bh (nb * bw) bw i (bh (nth_band bw i q)) x ops) <$> all))
                      <$> seq 0 nb)).
Proof. exact (visits_exact k bh nb bw th ops q all). Qed.

(** The similarities computed: one for each id that is there now and is met in some band. *)
Theorem C108_evaluations {T} `{!EqDecision T} {Id} `{Countable Id} (k : container_kind) (bh : list T -> N) (nb bw : nat)
    (th : f64) (ops : list (op Id T)) (q : list T) :
  whole (nb * bw) ops -> length q = nb * bw ->
  exists (v : nat) (l : list Id), visits (container k Id) bh (after k bh nb bw th ops) q = Some v /\
    evaluations (container k Id) bh (after k bh nb bw th ops) q = Some (length l) /\ NoDup l /\
    (forall x, x ∈ l <-> is_Some (spec_map (nb * bw) ops !! x) /\ met k bh nb bw ops q x) /\
    length l <= v /\ length l <= size (spec_map (nb * bw) ops).
Proof. exact (evaluations_exact k bh nb bw th ops q). Qed.

(** Clean histories: with every container a stored document costs one visit per band with the same key,
    so at most one per band; without collisions the keys are the hashes of the band. *)
Theorem C108_clean {T} `{!EqDecision T} {Id} `{Countable Id} (k : container_kind) (bh : list T -> N) (nb bw : nat)
    (th : f64) (ops : list (op Id T)) (q : list T) :
  clean (nb * bw) ops -> length q = nb * bw ->
  exists v, visits (container k Id) bh (after k bh nb bw th ops) q = Some v /\
    v = sum_list ((fun p => same_keys bh nb bw q p.2) <$> map_to_list (spec_map (nb * bw) ops)) /\
    v <= nb * size (spec_map (nb * bw) ops) /\
    (collision_free bw bh ->
     v = sum_list ((fun p => same_bands nb bw q p.2) <$> map_to_list (spec_map (nb * bw) ops))).
Proof.
  intros Hc Hq. eexists. split; [exact (visits_clean k bh nb bw th ops q Hc Hq)|]. split; [done|]. split.
  - etransitivity; [apply (sum_le _ (fun _ => nb)); intros p _; apply same_keys_le|].
    rewrite sum_const. change (length (map_to_list ?m)) with (size m). lia.
  - intros Hf. apply sum_ext. intros [x s] Hp. apply elem_of_map_to_list in Hp. cbn.
    apply same_keys_bands; [done|done|]. exact (clean_well_sized _ _ _ Hc x s Hp).
Qed.

(** Inserting a document again and again with its signature: no answer changes, but with vectors every
    query that meets it in some band pays for each time; with sets nothing is paid. *)
Lemma offers_repeat {T} {Id} `{Countable Id} (ops : list (op Id T)) j id s x :
  x ∈ offers (ops ++ replicate j (Insert id s)) -> x = id \/ x ∈ offers ops.
Proof.
  unfold offers. rewrite fmap_app, concat_app, elem_of_app. intros [Hx|Hx]; [by right|left].
  induction j as [|j IH]; [by apply elem_of_nil in Hx|]. cbn in Hx. apply elem_of_cons in Hx as [->|Hx]; auto.
Qed.
Lemma whole_repeat {T} {Id} (n : nat) (ops : list (op Id T)) j id s : whole n ops -> whole n (ops ++ replicate j (Insert id s)).
Proof. intros Hw. apply Forall_app. split; [done|]. by apply Forall_replicate. Qed.

Theorem C108_again {T} `{!EqDecision T} {Id} `{Countable Id} (k : container_kind) (bh : list T -> N) (nb bw : nat)
    (th : f64) (ops : list (op Id T)) (q s : list T) (id : Id) (j : nat) :
  whole (nb * bw) ops -> length q = nb * bw -> length s = nb * bw ->
  exists v v', visits (container k Id) bh (after k bh nb bw th (ops ++ [Insert id s])) q = Some v /\
    visits (container k Id) bh (after k bh nb bw th (ops ++ replicate (S j) (Insert id s))) q = Some v' /\
    (k = KHashSet -> v' = v) /\ (k <> KHashSet -> v' = v + j * same_keys bh nb bw q s).
Proof.
  intros Hw Hq Hs. set (all := remove_dups (id :: offers ops)).
  assert (Hall : forall i x, x ∈ offers (ops ++ replicate i (Insert id s)) -> x ∈ all).
  { intros i x Hx. apply elem_of_remove_dups. apply offers_repeat in Hx as [->|Hx]; [left|by right]. }
  assert (Hn : NoDup all) by apply NoDup_remove_dups.
  eexists _, _. split; [exact (visits_exact k bh nb bw th _ q all (whole_repeat _ ops 1 id s Hw) Hq Hn (Hall 1))|].
  split; [exact (visits_exact k bh nb bw th _ q all (whole_repeat _ ops (S j) id s Hw) Hq Hn (Hall (S j)))|].
  unfold expected. split; intros Hk.
  - apply sum_ext. intros i _. apply sum_ext. intros x _. rewrite !marks_app. by apply marks_repeat_set.
  - unfold same_keys. rewrite <- sum_if, <- sum_plus. apply sum_ext. intros i _.
    transitivity (sum_list ((fun x => marks k bh (nb * bw) bw i (bh (nth_band bw i q)) x (ops ++ [Insert id s])
      + if decide (id = x /\ bh (nth_band bw i s) = bh (nth_band bw i q)) then j else 0) <$> all)).
    + apply sum_ext. intros x _. rewrite !marks_app. rewrite (marks_repeat_vec k bh nb bw i _ x _ _ (S j) id s Hk Hs).
      rewrite (marks_repeat_vec k bh nb bw i _ x _ _ 1 id s Hk Hs). destruct (decide _); lia.
    + rewrite sum_plus, sum_if. f_equal. destruct (decide (bh (nth_band bw i s) = bh (nth_band bw i q))) as [E|E].
      * rewrite (BitsFacts.filter_ext_length _ (fun x => id = x)) by (intros x _; tauto).
        rewrite filter_one; [lia|done|]. apply elem_of_remove_dups. left.
      * rewrite (BitsFacts.filter_ext_length _ (fun _ => False)) by (intros x _; tauto).
        assert (Hf : filter (fun _ : Id => False) all = []) by (generalize all; clear; intros l; induction l as [|x l IH]; [done|]; rewrite filter_cons_False; [exact IH|tauto]).
        rewrite Hf. cbn. lia.
Qed.

Theorem C108_again_answers {T} `{!EqDecision T} {Id} `{Countable Id} (k : container_kind) (bh : list T -> N) (nb bw : nat)
    (th : f64) (ops : list (op Id T)) (q s : list T) (id : Id) (j : nat) :
  whole (nb * bw) ops -> well_sized (nb * bw) (spec_map (nb * bw) ops) -> length q = nb * bw -> length s = nb * bw ->
  is_Some (query (container k Id) bh (after k bh nb bw th (ops ++ [Insert id s])) q) /\
  query (container k Id) bh (after k bh nb bw th (ops ++ replicate (S j) (Insert id s))) q =
  query (container k Id) bh (after k bh nb bw th (ops ++ [Insert id s])) q.
Proof.
  intros Hw Hz Hq Hs.
  assert (Hm : forall i, spec_map (nb * bw) (ops ++ replicate (S i) (Insert id s)) = <[id := s]> (spec_map (nb * bw) ops)).
  { intros i. unfold spec_map. rewrite fold_left_app. generalize (fold_left (spec_step (nb * bw)) ops ∅). intros m.
    cbn [replicate fold_left spec_step]. rewrite decide_True by done. revert m.
    induction i as [|i IH]; intros m; [done|]. cbn [replicate fold_left spec_step].
    rewrite decide_True by done. rewrite insert_insert. apply IH. }
  assert (Hz' : forall i, well_sized (nb * bw) (spec_map (nb * bw) (ops ++ replicate (S i) (Insert id s)))).
  { intros i. rewrite Hm. intros x t. rewrite lookup_insert_Some. intros [[_ <-]|[_ Ht]]; [done|by apply (Hz x t)]. }
  destruct (history_exact k bh nb bw th _ q (whole_repeat _ ops 1 id s Hw) (Hz' 0) Hq) as (S1 & E1 & H1).
  destruct (history_exact k bh nb bw th _ q (whole_repeat _ ops (S j) id s Hw) (Hz' j) Hq) as (S2 & E2 & H2).
  change [Insert id s] with (replicate 1 (Insert id s : op Id T)). rewrite E1, E2. split; [eauto|]. f_equal.
  apply set_eq. intros x. rewrite H1, H2. unfold history_answer. rewrite !Hm.
  assert (Hp : forall i key, 0 < marks k bh (nb * bw) bw i key x (ops ++ replicate (S j) (Insert id s)) <->
    0 < marks k bh (nb * bw) bw i key x (ops ++ replicate 1 (Insert id s))).
  { intros i key. rewrite !marks_app. assert (Hk : k = KHashSet \/ k <> KHashSet) by (destruct k; [by left|by right|by right]). destruct Hk as [Hk|Hk].
    - by rewrite (marks_repeat_set k bh nb bw i key x _ _ j id s Hk Hs).
    - rewrite !(marks_repeat_vec k bh nb bw i key x _ _ _ id s Hk Hs). destruct (decide _); lia. }
  split; intros (t & Ht & Hg & i & Hi & Hx); exists t; (split; [done|]); (split; [done|]); exists i; (split; [done|]); by apply Hp.
Qed.

(** ** Cases *)
Example C108_example :
  clean 4 clean_ops /\
  visits (container KVec N) bhx (after KVec bhx 2 2 half clean_ops) [1;2;3;4]%N = Some 5 /\
  evaluations (container KVec N) bhx (after KVec bhx 2 2 half clean_ops) [1;2;3;4]%N = Some 4 /\
  same_keys bhx 2 2 [1;2;3;4]%N [1;2;3;4]%N = 2 /\
  visits (container KVec N) bhx (after KVec bhx 2 2 half (clean_ops ++ replicate 4 (Insert 1 [1;2;3;4])))%N [1;2;3;4]%N = Some 13 /\
  visits (container KHashSet N) bhx (after KHashSet bhx 2 2 half (clean_ops ++ replicate 4 (Insert 1 [1;2;3;4])))%N [1;2;3;4]%N = Some 5.
Proof.
  split; [apply (bool_decide_unpack _); vm_compute; exact I|]. repeat split; vm_compute; reflexivity.
Qed.

(** The cost is not bounded by the documents stored: one document, any number of visits. *)
Theorem C108_stored_documents_refuted : exists (k : container_kind) (bh : list N -> N), forall v : nat,
  exists (ops : list (op N N)) (q : list N), whole 1 ops /\ size (spec_map 1 ops) = 1 /\
  visits (container k N) bh (after k bh 1 1 half ops) q = Some (S v) /\
  evaluations (container k N) bh (after k bh 1 1 half ops) q = Some 1.
Proof.
  exists KVec, bhx. intros v. set (ops := replicate (S v) (Insert 1%N [5%N])). exists ops, [5%N].
  assert (Hw : whole 1 ops) by exact (whole_repeat 1 [] (S v) 1%N [5%N] (Forall_nil_2 _)).
  assert (Hs : spec_map 1 ops = {[1%N := [5%N]]}).
  { unfold spec_map, ops. clear. cbn [replicate fold_left]. change (spec_step 1 ∅ (Insert 1%N [5%N])) with (<[1%N := [5%N]]> ∅ : gmap N (list N)).
    rewrite insert_empty. induction v as [|v IH]; [done|]. cbn [replicate fold_left].
    change (spec_step 1 {[1%N := [5%N]]} (Insert 1%N [5%N])) with (<[1%N := [5%N]]> {[1%N := [5%N]]} : gmap N (list N)).
    rewrite insert_singleton. exact IH. }
  split; [done|]. split; [rewrite Hs; apply map_size_singleton|].
  destruct (C108_again KVec bhx 1 1 half [] [5%N] [5%N] 1%N v (Forall_nil_2 _) eq_refl eq_refl) as (a & b & Ha & Hb & _ & E).
  specialize (E ltac:(discriminate)). change (after KVec bhx 1 1 half ([] ++ replicate (S v) (Insert 1%N [5%N])))
    with (after KVec bhx 1 1 half ops) in Hb. rewrite Hb.
  assert (Ea : a = 1).
  { enough (Some a = Some 1) by congruence. rewrite <- Ha. vm_compute. reflexivity. }
  assert (Ek : same_keys bhx 1 1 [5%N] [5%N] = 1) by (vm_compute; reflexivity).
  rewrite Ea, Ek in E. split; [f_equal; lia|].
  destruct (C108_evaluations KVec bhx 1 1 half ops [5%N] Hw eq_refl) as (_ & l & _ & -> & Hn & Hl & _ & Hle).
  change (1 * 1) with 1 in *. rewrite Hs, map_size_singleton in Hle. f_equal.
  enough (1 <= length l) by lia. assert (Hin : 1%N ∈ l).
  { apply Hl. split; [rewrite Hs, lookup_singleton; eauto|]. exists 0. split; [lia|].
    change ops with ([] ++ ops). unfold ops. change 1 with (1 * 1) at 1. rewrite marks_app.
    rewrite (marks_repeat_vec KVec bhx 1 1 0) by done. rewrite decide_True by done. lia. }
  destruct l; [by apply elem_of_nil in Hin|]. cbn. lia.
Qed.

(** ... nor does an index whose documents have all been removed answer without visits. *)
Theorem C108_removed_refuted : exists (ops : list (op N N)) (q : list N),
  whole 1 ops /\ spec_map 1 ops = ∅ /\
  visits (container KVec N) bhx (after KVec bhx 1 1 half ops) q = Some 1 /\
  evaluations (container KVec N) bhx (after KVec bhx 1 1 half ops) q = Some 0.
Proof.
  exists [Insert 1%N [5%N]; Insert 1%N [5%N]; Remove 1%N], [5%N].
  split; [by repeat constructor|]. split; [apply map_to_list_empty_iff; vm_compute; reflexivity|]. split; vm_compute; reflexivity.
Qed.

Print Assumptions C108_visits.
Print Assumptions C108_evaluations.
Print Assumptions C108_clean.
Print Assumptions C108_again.
Print Assumptions C108_again_answers.
Print Assumptions C108_stored_documents_refuted.
Print Assumptions C108_removed_refuted.
