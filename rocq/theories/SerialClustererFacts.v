(** Proofs about the serial clusterer. *)
From stdpp Require Import base list gmap.
From Coq Require Import NArith.
From Verif Require Import ListFacts Base SerialClusterer.
Local Open Scope nat_scope.

Section Facts.
Context {P : Type} `{Countable P}.
Implicit Types (m : gmap P N) (c : cluster P) (cs : list (cluster P)).

Definition members cs : list P := concat (c_points <$> cs).

Lemma members_app cs1 cs2 : members (cs1 ++ cs2) = members cs1 ++ members cs2.
Proof. unfold members. by rewrite fmap_app, concat_app. Qed.

Lemma members_snoc cs c : members (cs ++ [c]) = members cs ++ c_points c.
Proof. unfold members. rewrite fmap_app, concat_app. cbn. by rewrite app_nil_r. Qed.

Lemma elem_of_members x cs : x ∈ members cs <-> exists c, c ∈ cs /\ x ∈ c_points c.
Proof.
  induction cs as [|c cs IH]; [set_solver|].
  change (members (c :: cs)) with (c_points c ++ members cs). rewrite elem_of_app, IH. set_solver.
Qed.

Lemma create_new_cluster_spec ps id m acc :
  (create_new_cluster ps id m acc).1 = Cluster id (acc ++ ps) /\
  forall x, (create_new_cluster ps id m acc).2 !! x = if decide (x ∈ ps) then Some id else m !! x.
Proof.
  revert m acc. induction ps as [|p ps IH]; intros m acc; cbn [create_new_cluster].
  - rewrite app_nil_r. split; [done|]. intros x. by rewrite decide_False by set_solver.
  - destruct (IH (<[p := id]> m) (acc ++ [p])) as [H1 H2]. split.
    + rewrite H1. by rewrite <- app_assoc.
    + intros x. rewrite H2. destruct (decide (x ∈ ps)) as [Hin|Hin].
      * by rewrite decide_True by set_solver.
      * destruct (decide (x = p)) as [->|Hne].
        -- rewrite lookup_insert, decide_True by set_solver. done.
        -- rewrite lookup_insert_ne, decide_False by set_solver. done.
Qed.

Lemma bool_filter (Q : P -> bool) (R : P -> Prop) `{!forall x, Decision (R x)} (l : list P) :
  (forall x, Q x = true <-> R x) -> List.filter Q l = filter R l.
Proof.
  intros HQ. induction l as [|x l IH]; [done|]. cbn [List.filter]. rewrite filter_cons, IH.
  destruct (Q x) eqn:E; destruct (decide (R x)); naive_solver congruence.
Qed.

Context (query : P -> res (list P)).

(** The loop of both clusterers, for any test [big] on the number of points. *)
Fixpoint greedy (big : nat -> bool) (points : list P) (seq : N) m cs
  : gmap P N * res (list (cluster P)) :=
  match points with
  | [] => (m, Ok cs)
  | p :: points' =>
      match m !! p with
      | Some _ => greedy big points' seq m cs
      | None =>
          match query p with
          | None => (m, Panic)
          | Some found =>
              let similar_points := List.filter (fun x => match m !! x with None => true | _ => false end) found in
              if big (length similar_points) then
                let id := (seq + 1)%N in
                let r := create_new_cluster similar_points id m [] in
                greedy big points' id r.2 (cs ++ [r.1])
              else greedy big points' seq m cs
          end
      end
  end.

Lemma cluster_loop_greedy min points seq m cs :
  cluster_loop query min points seq m cs = greedy (fun n => min <? n) points seq m cs.
Proof.
  revert seq m cs. induction points as [|p points IH]; intros seq m cs; [done|].
  cbn [cluster_loop greedy]. rewrite IH. destruct (m !! p); [done|]. destruct (query p); [|done].
  cbn zeta. by rewrite IH.
Qed.

(** What is known in the middle of the loop: [m0] are the cells at the beginning. *)
Record linv (big : nat -> bool) (ps : list P) (seq0 : N) m0 m cs seq : Prop := {
  l_nodup : NoDup (members cs);
  l_fresh : forall x, x ∈ members cs -> m0 !! x = None;
  l_big : Forall (fun c => big (length (c_points c)) = true) cs;
  l_own : forall c x, c ∈ cs -> x ∈ c_points c -> m !! x = Some (c_id c);
  l_frame : forall x, x ∉ members cs -> m !! x = m0 !! x;
  l_ids : c_id <$> cs = (fun k => (seq0 + N.of_nat k)%N) <$> List.seq 1 (length cs);
  l_seq : seq = (seq0 + N.of_nat (length cs))%N;
  l_seed : forall cs1 c cs2, cs = cs1 ++ c :: cs2 ->
    exists p found, p ∈ ps /\ m0 !! p = None /\ p ∉ members cs1 /\ query p = Some found /\
      c_points c = filter (fun x => m0 !! x = None /\ x ∉ members cs1) found;
}.

Lemma linv_none big ps seq0 m0 m cs seq x :
  linv big ps seq0 m0 m cs seq -> m !! x = None <-> m0 !! x = None /\ x ∉ members cs.
Proof.
  intros Hi. split.
  - intros Hx. assert (Hn : x ∉ members cs).
    { intros (c & Hc & Hin)%elem_of_members. rewrite (l_own _ _ _ _ _ _ _ Hi c x) in Hx; done. }
    split; [|done]. by rewrite <- (l_frame _ _ _ _ _ _ _ Hi x Hn).
  - intros [Hx Hn]. by rewrite (l_frame _ _ _ _ _ _ _ Hi x Hn).
Qed.

Lemma seq_snoc a n : List.seq a (n + 1) = List.seq a n ++ [a + n].
Proof. by rewrite seq_app. Qed.

Lemma linv_add big ps seq0 m0 m cs seq p found :
  linv big ps seq0 m0 m cs seq -> p ∈ ps -> m !! p = None -> query p = Some found -> NoDup found ->
  let sim := filter (fun x => m0 !! x = None /\ x ∉ members cs) found in
  big (length sim) = true ->
  linv big ps seq0 m0 (create_new_cluster sim (seq + 1)%N m []).2
    (cs ++ [(create_new_cluster sim (seq + 1)%N m []).1]) (seq + 1)%N.
Proof.
  intros Hi Hp Hmp Hq Hnd sim Hlen.
  destruct (create_new_cluster_spec sim (seq + 1)%N m []) as [Hc Hm]. rewrite Hc. cbn [app].
  assert (Hsim : forall x, x ∈ sim -> m0 !! x = None /\ x ∉ members cs).
  { intros x Hx. unfold sim in Hx. by apply elem_of_list_filter in Hx as [? _]. }
  split.
  - rewrite members_snoc. cbn [c_points]. apply NoDup_app. split; [apply Hi|].
    split; [|by apply NoDup_filter]. intros x Hx Hx'. by destruct (Hsim x Hx').
  - intros x. rewrite members_snoc, elem_of_app. intros [Hx|Hx].
    + by apply (l_fresh _ _ _ _ _ _ _ Hi).
    + apply Hsim, Hx.
  - apply Forall_app. split; [apply Hi|]. constructor; [done|constructor].
  - intros c x. rewrite elem_of_app, elem_of_list_singleton. intros [Hcs| ->] Hx.
    + rewrite Hm, decide_False.
      * by apply (l_own _ _ _ _ _ _ _ Hi).
      * intros Hx'. destruct (Hsim x Hx') as [_ Hn]. apply Hn, elem_of_members. eauto.
    + cbn [c_points c_id] in *. by rewrite Hm, decide_True.
  - intros x. rewrite members_snoc. cbn [c_points]. intros Hx.
    rewrite Hm, decide_False by set_solver. apply (l_frame _ _ _ _ _ _ _ Hi). set_solver.
  - rewrite app_length, seq_snoc, !fmap_app, (l_ids _ _ _ _ _ _ _ Hi). f_equal. cbn. f_equal.
    rewrite (l_seq _ _ _ _ _ _ _ Hi). lia.
  - rewrite app_length, (l_seq _ _ _ _ _ _ _ Hi). cbn. lia.
  - intros cs1 c cs2 E. destruct (decide (cs2 = [])) as [->|Hne].
    + apply app_inj_tail in E as [<- <-]. exists p, found.
      apply (linv_none _ _ _ _ _ _ _ p Hi) in Hmp as [H1 H2]. split_and!; done.
    + destruct (exists_last Hne) as (cs2' & c' & ->).
      rewrite app_comm_cons, app_assoc in E. apply app_inj_tail in E as [E _].
      by apply (l_seed _ _ _ _ _ _ _ Hi cs1 c cs2').
Qed.

Lemma linv_weaken big ps ps' seq0 m0 m cs seq :
  (forall p, p ∈ ps -> p ∈ ps') -> linv big ps seq0 m0 m cs seq -> linv big ps' seq0 m0 m cs seq.
Proof.
  intros Hsub [H1 H2 H3 H4 H5 H6 H7 H8]. split; try done.
  intros cs1 c cs2 E. destruct (H8 cs1 c cs2 E) as (p & found & Hp & Hr). eauto 10.
Qed.

Lemma greedy_ok big all todo seq0 m0 m cs seq :
  (forall n k, big n = false -> k <= n -> big k = false) ->
  (forall p, p ∈ todo -> p ∈ all) ->
  (forall p, p ∈ todo -> exists found, query p = Some found /\ NoDup found) ->
  linv big all seq0 m0 m cs seq ->
  exists m' cs' seq', greedy big todo seq m cs = (m', Some cs') /\
    linv big all seq0 m0 m' cs' seq' /\
    (forall x, is_Some (m !! x) -> is_Some (m' !! x)) /\
    forall p, p ∈ todo -> is_Some (m' !! p) \/
      exists found, query p = Some found /\
        (filter (fun x => m' !! x = None) found = [] \/
         big (length (filter (fun x => m' !! x = None) found)) = false).
Proof.
  intros Hbig. revert m cs seq. induction todo as [|p todo IH]; intros m cs seq Hall Hq Hi.
  - exists m, cs, seq. split; [done|]. split; [done|]. split; [done|]. set_solver.
  - assert (Hall' : forall p, p ∈ todo -> p ∈ all) by set_solver.
    assert (Hq' : forall p, p ∈ todo -> exists found, query p = Some found /\ NoDup found).
    { intros p' Hp'. apply Hq. set_solver. }
    cbn [greedy]. destruct (m !! p) as [a|] eqn:Em.
    + destruct (IH m cs seq Hall' Hq' Hi) as (m' & cs' & seq' & E & Hi' & Hmono & Hmax).
      exists m', cs', seq'. split; [done|]. split; [done|]. split; [done|].
      intros p' [->|Hp']%elem_of_cons; [|by apply Hmax]. left. apply Hmono. by rewrite Em.
    + destruct (Hq p ltac:(set_solver)) as (found & Hf & Hnd). rewrite Hf.
      rewrite (bool_filter _ (fun x => m0 !! x = None /\ x ∉ members cs)).
      2: { intros x. rewrite <- (linv_none _ _ _ _ _ _ _ x Hi). by destruct (m !! x). }
      destruct (big (length (filter (fun x => m0 !! x = None /\ x ∉ members cs) found))) eqn:Hlt.
      * pose proof (linv_add _ _ _ _ _ _ _ p found Hi (Hall p ltac:(set_solver)) Em Hf Hnd Hlt) as Hi2.
        destruct (IH _ _ _ Hall' Hq' Hi2) as (m' & cs' & seq' & E & Hi' & Hmono & Hmax).
        exists m', cs', seq'. split; [done|]. split; [done|].
        assert (Hmono' : forall x, is_Some (m !! x) -> is_Some (m' !! x)).
        { intros x Hx. apply Hmono.
          rewrite (proj2 (create_new_cluster_spec _ _ _ _)). by case_decide. }
        split; [done|].
        intros p' [->|Hp']%elem_of_cons; [|by apply Hmax].
        destruct (m' !! p) eqn:Em'; [by left|]. right. exists found. split; [done|].
        left. apply elem_of_nil_inv.
        intros x [Hx1 Hx2]%elem_of_list_filter.
        assert (is_Some (m' !! x)) as [? Hs]; [|congruence]. apply Hmono.
        rewrite (proj2 (create_new_cluster_spec _ _ _ _)).
        case_decide as Hx; [done|]. destruct (m !! x) eqn:Ex; [done|]. exfalso. apply Hx.
        apply elem_of_list_filter. split; [|done]. by apply (linv_none _ _ _ _ _ _ _ x Hi).
      * destruct (IH m cs seq Hall' Hq' Hi) as (m' & cs' & seq' & E & Hi' & Hmono & Hmax).
        exists m', cs', seq'. split; [done|]. split; [done|]. split; [done|].
        intros p' [->|Hp']%elem_of_cons; [|by apply Hmax]. right. exists found. split; [done|].
        right. apply (Hbig _ _ Hlt). apply sublist_length, filter_sublist_weaken.
        intros x _ Hx. apply (linv_none _ _ _ _ _ _ _ x Hi). destruct (m !! x) eqn:E'; [|done].
        assert (is_Some (m' !! x)) as [? Hs] by (apply Hmono; by rewrite E'). congruence.
Qed.

Lemma linv_start big all seq m : linv big all seq m m [] seq.
Proof.
  split.
  - constructor.
  - intros x Hx. by apply elem_of_nil in Hx.
  - constructor.
  - intros c x Hc. by apply elem_of_nil in Hc.
  - done.
  - done.
  - cbn. lia.
  - intros cs1 c cs2 E. by destruct cs1.
Qed.

Lemma run_cluster_spec (k : clusterer) points m :
  (forall p, p ∈ points -> exists found, query p = Some found /\ NoDup found) ->
  exists m' cs seq', run_cluster query k points m = ((m', Some cs), k) /\
    linv (fun n => min_cluster_size k <? n) points (cluster_id_sequence k) m m' cs seq' /\
    forall p, p ∈ points -> is_Some (m' !! p) \/
      exists found, query p = Some found /\
        length (filter (fun x => m' !! x = None) found) <= min_cluster_size k.
Proof.
  intros Hq. unfold run_cluster. rewrite cluster_loop_greedy.
  destruct (greedy_ok (fun n => min_cluster_size k <? n) points points (cluster_id_sequence k) m m []
    (cluster_id_sequence k)) as (m' & cs & seq' & E & Hi & _ & Hm); [|done|done|apply linv_start|].
  { intros n j Hn Hj. apply Nat.ltb_ge in Hn. apply Nat.ltb_ge. lia. }
  exists m', cs, seq'. rewrite E. split; [done|]. split; [done|]. intros p Hp.
  destruct (Hm p Hp) as [?|(found & Hf & [Hnil|Hlt])]; [by left| |]; right; exists found; (split; [done|]).
  - rewrite Hnil. cbn. lia.
  - by apply Nat.ltb_ge in Hlt.
Qed.
End Facts.
