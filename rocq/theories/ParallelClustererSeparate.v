(** The parallel clusterer when no point is similar to points of two chunks. *)
From stdpp Require Import base list gmap.
From Coq Require Import NArith.
From Verif Require Import ListFacts Base ParallelClusterer SpecParallel ParallelClustererFacts ParallelClustererSingle.
Local Open Scope nat_scope.

Section Separate.
Context {P : Type} `{Countable P}.
Context (query : P -> res (list P)) (min : nat) (checks : bool).
Notation memory := (memory P).
Notation thread := (thread P).
Notation thread_step := (thread_step query min checks).
Notation system_step := (system_step query min checks).
Notation run_schedule := (run_schedule query min checks).
Implicit Types (m : memory) (t : thread) (a : N) (p : P).

(** What a thread does when nobody interferes: [A] tells which points are assigned. *)
Definition free (A : P -> bool) (l : list P) : list P := List.filter (fun x => negb (A x)) l.
Definition plus (A : P -> bool) (l : list P) (x : P) : bool := A x || bool_decide (x ∈ l).
Fixpoint plan (A : P -> bool) (td : list P) : list (list P) :=
  match td with
  | [] => []
  | p :: td' =>
      if A p then plan A td'
      else match query p with
           | None => []
           | Some found =>
               if min <=? length (free A found) then free A found :: plan (plus A (free A found)) td'
               else plan A td'
           end
  end.

Definition asg m (x : P) : bool := match cells m !! x with Some _ => true | None => false end.

Lemma free_ext A B l : (forall x, x ∈ l -> A x = B x) -> free A l = free B l.
Proof.
  unfold free. induction l as [|x l IH]; intros E; [done|]. cbn [List.filter].
  rewrite (E x) by left. rewrite IH by (intros y Hy; apply E; by right). done.
Qed.

(** The points whose assignment matters. *)
Definition near (l : list P) (x : P) : Prop :=
  exists p, p ∈ l /\ (x = p \/ exists found, query p = Some found /\ x ∈ found).

Lemma near_cons p l x : near l x -> near (p :: l) x.
Proof. intros (q & Hq & Hx). exists q. split; [by right|done]. Qed.

Lemma plan_ext A B td : (forall x, near td x -> A x = B x) -> plan A td = plan B td.
Proof.
  revert A B. induction td as [|p td IH]; intros A B E; [done|]. cbn [plan].
  assert (Hp : A p = B p). { apply E. exists p. split; [left|by left]. }
  assert (Ht : forall x, near td x -> A x = B x). { intros x Hx. by apply E, near_cons. }
  rewrite Hp. destruct (B p); [by apply IH|]. destruct (query p) as [found|] eqn:Eq; [|done].
  assert (Hf : free A found = free B found).
  { apply free_ext. intros x Hx. apply E. exists p. split; [left|right; eauto]. }
  rewrite Hf. destruct (min <=? _); [f_equal|]; apply IH; [|done].
  intros x Hx. unfold plus. by rewrite Ht.
Qed.

(** What is still to come for a thread. *)
Definition future m t : list (list P) :=
  match at_pc t with
  | Next => plan (asg m) (todo t)
  | Filter qs acc =>
      let sim := acc ++ free (asg m) qs in
      if min <=? length sim then sim :: plan (plus (asg m) sim) (todo t) else plan (asg m) (todo t)
  | Alloc pts => pts :: plan (plus (asg m) pts) (todo t)
  | Check _ own rest _ | Assign _ own rest _ => (own ++ rest) :: plan (plus (asg m) rest) (todo t)
  | Commit _ own => own :: plan (asg m) (todo t)
  | _ => []
  end.

Definition fresh m (l : list P) : Prop := NoDup l /\ forall x, x ∈ l -> cells m !! x = None.
Definition held m a (l : list P) : Prop := forall x, x ∈ l -> cells m !! x = Some a.
Definition box_of (x : pc P) : option N :=
  match x with Check a _ _ _ | Assign a _ _ _ | Commit a _ => Some a | _ => None end.
Definition pc_fine m (ch : list P) (x : pc P) : Prop :=
  match x with
  | Next | Done => True
  | Filter qs acc => NoDup (acc ++ qs) /\ (forall y, y ∈ acc -> cells m !! y = None) /\
      exists p found pre, p ∈ ch /\ query p = Some found /\ found = pre ++ qs /\ forall y, y ∈ acc -> y ∈ found
  | Alloc pts => fresh m pts /\ exists p found, p ∈ ch /\ query p = Some found /\ forall y, y ∈ pts -> y ∈ found
  | Check a own rest _ =>
      fresh m rest /\ held m a own /\ (a <= sequence m)%N /\ boxes m !! a = Some (Box 0 false) /\
      exists p found, p ∈ ch /\ query p = Some found /\ forall y, y ∈ own ++ rest -> y ∈ found
  | Assign a own rest _ => rest <> [] /\
      fresh m rest /\ held m a own /\ (a <= sequence m)%N /\ boxes m !! a = Some (Box 0 false) /\
      exists p found, p ∈ ch /\ query p = Some found /\ forall y, y ∈ own ++ rest -> y ∈ found
  | Commit a own =>
      held m a own /\ (a <= sequence m)%N /\ boxes m !! a = Some (Box 0 false) /\
      exists p found, p ∈ ch /\ query p = Some found /\ forall y, y ∈ own -> y ∈ found
  | _ => False
  end.

Record fine m (ch : list P) (total : list (list P)) t : Prop := {
  f_total : (clusters t).*2 ++ future m t = total;
  f_pc : pc_fine m ch (at_pc t);
  f_todo : forall p, p ∈ todo t -> p ∈ ch;
  f_held : forall a own, (a, own) ∈ clusters t -> held m a own /\
             exists p found, p ∈ ch /\ query p = Some found /\ forall y, y ∈ own -> y ∈ found;
}.

(** The boxes a thread has made. *)
Definition mine t a : Prop := a ∈ (clusters t).*1 \/ box_of (at_pc t) = Some a.

(** What one step may change: cells of similar points of the own chunk, from null, and the own box. *)
Record mild m t m' t' (ch : list P) : Prop := {
  d_seq : (sequence m <= sequence m')%N;
  d_cells : forall x, cells m' !! x <> cells m !! x ->
     cells m !! x = None /\ exists p found, p ∈ ch /\ query p = Some found /\ x ∈ found;
  d_boxes : forall a, box_of (at_pc t) <> Some a -> (a <= sequence m)%N -> boxes m' !! a = boxes m !! a;
  d_mine : forall a, mine t' a -> mine t a \/ (sequence m < a <= sequence m')%N;
  d_keep : forall a, mine t a -> mine t' a;
}.

Lemma asg_insert m p a x : asg (set_cells (<[p := a]> (cells m)) m) x = asg m x || bool_decide (x = p).
Proof.
  unfold asg. cbn. destruct (decide (x = p)) as [->|Hne].
  - rewrite lookup_insert. rewrite bool_decide_eq_true_2 by done. by destruct (cells m !! p).
  - rewrite lookup_insert_ne by done. rewrite bool_decide_eq_false_2 by done. by destruct (cells m !! x).
Qed.

Lemma free_elem A l x : x ∈ free A l <-> x ∈ l /\ A x = false.
Proof.
  unfold free. rewrite !elem_of_list_In, filter_In. destruct (A x); naive_solver.
Qed.

Lemma fine_step m ch total t :
  (forall p, p ∈ ch -> exists found, query p = Some found /\ NoDup found) ->
  fine m ch total t ->
  exists m' t', thread_step m t = Some (m', t') /\ fine m' ch total t' /\ mild m t m' t' ch.
Proof.
  intros Hq [Ht Hp Htd Hh]. destruct t as [x td cl]. cbn [at_pc todo clusters] in *.
  unfold ParallelClusterer.thread_step. cbn [at_pc todo clusters].
  assert (Hsame : forall x', box_of x' = box_of x -> forall td', mild m (Thread x td cl) m (Thread x' td' cl) ch).
  { intros x' Hb td'. split; unfold mine; cbn; rewrite ?Hb; [lia|done|done| |done]. intros a Ha. by left. }
  unfold future in Ht. cbn [at_pc todo] in Ht.
  destruct x as [|qs acc|pts|a own rest i|a own pending k|a own rest i|a own p rest i c
    |a own p rest i c|a own p rest i c|a own p rest i c|a own|a own| |]; cbn [pc_fine] in Hp; try done.
  - (* Next *)
    destruct td as [|p td].
    { eexists _, _. split; [done|]. split; [|by apply Hsame]. split; try done. }
    cbn [plan] in Ht. unfold asg in Ht at 1. destruct (cells m !! p) as [c|] eqn:Ep.
    { eexists _, _. split; [done|]. split; [|by apply Hsame]. split; try done.
      intros y Hy. apply Htd. by right. }
    destruct (Hq p ltac:(apply Htd; left)) as (found & Hf & Hnd). rewrite Hf in *.
    eexists _, _. split; [done|]. split; [|by apply Hsame]. split; cbn [at_pc todo clusters pc_fine].
    + unfold future. cbn [at_pc todo app]. done.
    + split; [done|]. split; [set_solver|]. exists p, found, []. split; [apply Htd; left|]. split_and!; [done|done|set_solver].
    + intros y Hy. apply Htd. by right.
    + done.
  - (* Filter *)
    destruct qs as [|q qs].
    + cbn [free List.filter] in Ht. rewrite app_nil_r in Ht, Hp. destruct Hp as (Hnd & Hun & p & found & pre & Hpc & Hf & _ & Hin).
      destruct (min <=? length acc) eqn:Em.
      * eexists _, _. split; [done|]. split; [|by apply Hsame]. split; try done. cbn. split; [done|]. eauto.
      * eexists _, _. split; [done|]. split; [|by apply Hsame]. split; try done.
    + destruct Hp as (Hnd & Hun & p & found & pre & Hpc & Hf & Hpre & Hin).
      destruct (cells m !! q) as [c|] eqn:Eq.
      * eexists _, _. split; [done|]. split; [|by apply Hsame]. split; try done; cbn [at_pc todo clusters pc_fine].
        -- rewrite <- Ht. unfold future. cbn [at_pc todo]. 
           assert (E : free (asg m) (q :: qs) = free (asg m) qs).
           { unfold free. cbn [List.filter]. unfold asg at 1. by rewrite Eq. }
           by rewrite E.
        -- split; [|split; [done|]].
           ++ eapply sublist_NoDup; [exact Hnd|]. apply sublist_app; [done|]. by apply sublist_cons.
           ++ exists p, found, (pre ++ [q]). split_and!; try done. rewrite Hpre. by rewrite <- app_assoc.
      * eexists _, _. split; [done|]. split; [|by apply Hsame]. split; try done; cbn [at_pc todo clusters pc_fine].
        -- rewrite <- Ht. unfold future. cbn [at_pc todo].
           assert (E : free (asg m) (q :: qs) = q :: free (asg m) qs).
           { unfold free. cbn [List.filter]. unfold asg at 1. by rewrite Eq. }
           rewrite E, <- app_assoc. done.
        -- split; [by rewrite <- app_assoc|]. split.
           ++ intros y [Hy|Hy]%elem_of_app; [by apply Hun|]. apply elem_of_list_singleton in Hy as ->. done.
           ++ exists p, found, (pre ++ [q]). split_and!; try done.
              ** rewrite Hpre. by rewrite <- app_assoc.
              ** intros y [Hy|Hy]%elem_of_app; [by apply Hin|]. apply elem_of_list_singleton in Hy as ->. rewrite Hpre. set_solver.
  - (* Alloc *)
    destruct Hp as (Hfr & Hsd). eexists _, _. split; [done|]. split.
    + split; try done; cbn [at_pc todo clusters pc_fine cells boxes sequence].
      split; [done|]. split; [intros y Hy; by apply elem_of_nil in Hy|]. split; [lia|]. split; [by rewrite lookup_insert|]. done.
    + split; unfold mine; cbn; [lia|done| | |].
      * intros a _ Ha. rewrite lookup_insert_ne by lia. done.
      * intros a [Ha|[= <-]]; [by left; left|]. right. lia.
      * intros a [Ha|Ha]; [by left|done].
  - (* Check *)
    destruct Hp as (Hfr & Hhl & Hle & Hb & Hsd). destruct rest as [|p rest].
    + eexists _, _. split; [done|]. rewrite !app_nil_r in *. split; [|by apply Hsame]. split; try done.
      cbn [at_pc todo clusters pc_fine]. rewrite <- Ht. unfold future. cbn [at_pc todo]. do 2 f_equal. apply plan_ext.
      intros x _. unfold plus. rewrite bool_decide_eq_false_2 by set_solver. by rewrite orb_false_r.
    + unfold is_rolled_back, deref. rewrite Hb. cbn. eexists _, _. split; [done|]. split; [|by apply Hsame].
      split; try done.
  - (* Assign *)
    destruct Hp as (Hne & Hfr & Hhl & Hle & Hb & Hsd). destruct rest as [|p rest]; [done|].
    destruct Hfr as [Hnd Hun]. unfold assign_cluster. rewrite (Hun p) by left.
    apply NoDup_cons in Hnd as [Hpn Hnd].
    eexists _, _. split; [done|]. split.
    + split; cbn [at_pc todo clusters pc_fine].
      * rewrite <- Ht. unfold future. cbn [at_pc todo]. rewrite <- app_assoc. do 2 f_equal. apply plan_ext.
        intros x _. unfold plus. rewrite asg_insert.
        destruct (asg m x); cbn [orb]; [done|]. destruct (decide (x = p)) as [->|Hxp].
        -- rewrite (bool_decide_eq_true_2 (p = p)) by done. rewrite (bool_decide_eq_true_2 (p ∈ p :: rest)) by left. done.
        -- rewrite (bool_decide_eq_false_2 (x = p)) by done. cbn [orb]. apply bool_decide_ext. set_solver.
      * split; [split; [done|]|split_and!].
        -- intros y Hy. cbn. rewrite lookup_insert_ne by set_solver. apply Hun. by right.
        -- intros y [Hy|Hy]%elem_of_app; cbn.
           ++ rewrite lookup_insert_ne; [by apply Hhl|]. intros ->. specialize (Hhl _ Hy). rewrite Hun in Hhl by left. done.
           ++ apply elem_of_list_singleton in Hy as ->. apply lookup_insert.
        -- done.
        -- done.
        -- by rewrite <- app_assoc.
      * done.
      * intros b own' Hin. destruct (Hh b own' Hin) as [Hho Hse]. split; [|done]. intros y Hy. cbn.
        rewrite lookup_insert_ne; [by apply Hho|]. intros ->. specialize (Hho _ Hy). rewrite Hun in Hho by left. done.
    + split; unfold mine; cbn; [lia| |done|by left|done].
      intros y Hy. destruct (decide (y = p)) as [->|Hyp].
      * split; [apply Hun; left|]. destruct Hsd as (p0 & found & H1 & H2 & H3). exists p0, found. split_and!; [done|done|]. apply H3. set_solver.
      * by rewrite lookup_insert_ne in Hy.
  - (* Commit *)
    destruct Hp as (Hhl & Hle & Hb & Hsd). unfold commit, set_state_from_new, deref. rewrite Hb. cbn.
    eexists _, _. split; [done|]. split.
    + split; cbn [at_pc todo clusters pc_fine].
      * rewrite <- Ht. unfold future. cbn [at_pc todo]. rewrite fmap_app, <- app_assoc. done.
      * done.
      * done.
      * intros b own' [Hin|Hin]%elem_of_app; [by apply Hh|]. apply elem_of_list_singleton in Hin. injection Hin as -> ->. done.
    + split; unfold mine; cbn; [lia|done| | |].
      * intros b Hne Hbl. rewrite lookup_insert_ne by congruence. done.
      * intros b. rewrite fmap_app, elem_of_app. cbn. intros [[Hb'|Hb']|Hb']; [by left; left| |done].
        apply elem_of_list_singleton in Hb' as ->. left. by right.
      * intros b. rewrite fmap_app, elem_of_app. cbn. intros [Hb'|[= <-]]; [by left; left|]. left. right. left.
  - (* Done *)
    eexists _, _. split; [done|]. split; [|by apply Hsame]. split; try done.
Qed.

Lemma near_todo (l ch : list P) x : (forall p, p ∈ l -> p ∈ ch) -> near l x -> near ch x.
Proof. intros Hl (p & Hp & Hx). exists p. split; [by apply Hl|done]. Qed.
Lemma near_found (ch : list P) p found x : p ∈ ch -> query p = Some found -> x ∈ found -> near ch x.
Proof. intros Hp Hf Hx. exists p. split; [done|]. right. eauto. Qed.

Lemma fine_other m m' ch total t :
  fine m ch total t -> (sequence m <= sequence m')%N ->
  (forall x, near ch x -> cells m' !! x = cells m !! x) ->
  (forall a, box_of (at_pc t) = Some a -> (a <= sequence m)%N -> boxes m' !! a = boxes m !! a) ->
  fine m' ch total t.
Proof.
  intros [Ht Hp Htd Hh] Hs Hc Hb.
  assert (Ha : forall x, near ch x -> asg m' x = asg m x). { intros x Hx. unfold asg. by rewrite Hc. }
  assert (Hpl : plan (asg m') (todo t) = plan (asg m) (todo t)).
  { apply plan_ext. intros x Hx. apply Ha. by eapply near_todo. }
  assert (Hpp : forall l, plan (plus (asg m') l) (todo t) = plan (plus (asg m) l) (todo t)).
  { intros l. apply plan_ext. intros x Hx. unfold plus. rewrite Ha; [done|]. by eapply near_todo. }
  assert (Hheld : forall a l, held m a l -> (exists p found, p ∈ ch /\ query p = Some found /\ forall y, y ∈ l -> y ∈ found) -> held m' a l).
  { intros a l Hl (p & f & H1 & H2 & H3) y Hy. rewrite Hc; [by apply Hl|]. eapply near_found; eauto. }
  assert (Hfr : forall l, fresh m l -> (exists p found, p ∈ ch /\ query p = Some found /\ forall y, y ∈ l -> y ∈ found) -> fresh m' l).
  { intros l [Hn Hl] (p & f & H1 & H2 & H3). split; [done|]. intros y Hy. rewrite Hc; [by apply Hl|]. eapply near_found; eauto. }
  split; [| |done|].
  - rewrite <- Ht. f_equal. unfold future.
    destruct (at_pc t) as [|qs acc|pts|a own rest i|a own pending k|a own rest i|a own p rest i c
      |a own p rest i c|a own p rest i c|a own p rest i c|a own|a own| |]; rewrite ?Hpl, ?Hpp; try done.
    cbn [pc_fine] in Hp. destruct Hp as (_ & _ & p & found & pre & Hpc & Hf & -> & _).
    rewrite (free_ext (asg m') (asg m) qs); [cbn zeta; by rewrite ?Hpp|].
    intros x Hx. apply Ha. eapply near_found; [done|done|]. set_solver.
  - destruct (at_pc t) as [|qs acc|pts|a own rest i|a own pending k|a own rest i|a own p rest i c
      |a own p rest i c|a own p rest i c|a own p rest i c|a own|a own| |]; cbn [pc_fine box_of] in *; try done.
    + destruct Hp as (H1 & H2 & p & found & pre & Hpc & Hf & Hpre & Hin). split; [done|]. split; [|eauto 10].
      intros y Hy. rewrite Hc; [by apply H2|]. eapply near_found; eauto.
    + destruct Hp as [H1 H2]. split; [by apply Hfr|done].
    + destruct Hp as (H1 & H2 & H3 & H4 & p & found & H5 & H6 & H7). split_and!.
      * apply Hfr; [done|]. exists p, found. split_and!; [done|done|set_solver].
      * apply Hheld; [done|]. exists p, found. split_and!; [done|done|set_solver].
      * lia.
      * by rewrite Hb.
      * eauto.
    + destruct Hp as (H0 & H1 & H2 & H3 & H4 & p & found & H5 & H6 & H7). split_and!.
      * done.
      * apply Hfr; [done|]. exists p, found. split_and!; [done|done|set_solver].
      * apply Hheld; [done|]. exists p, found. split_and!; [done|done|set_solver].
      * lia.
      * by rewrite Hb.
      * eauto.
    + destruct Hp as (H2 & H3 & H4 & H5). split_and!; [by apply Hheld|lia|by rewrite Hb|done].
  - intros a own Hin. destruct (Hh a own Hin) as [H1 H2]. split; [by apply Hheld|done].
Qed.

(** No point is similar to points of two chunks. *)
Definition separated (chunks : list (list P)) : Prop :=
  forall i j ch ch' x q found, i <> j -> chunks !! i = Some ch -> chunks !! j = Some ch' ->
    near ch x -> q ∈ ch' -> query q = Some found -> x ∉ found.

Context (m0 : memory) (chunks : list (list P)).
Definition start_plan (ch : list P) : list (list P) :=
  match sort_by_most_number_of_similar_points query ch with Some l => plan (asg m0) l | None => [] end.

Record sinv (s : system) : Prop := {
  s_def : undefined s = false;
  s_len : length (threads s) = length chunks;
  s_fine : forall i ch t, chunks !! i = Some ch -> threads s !! i = Some t -> fine (mem s) ch (start_plan ch) t;
  s_le : forall i t a, threads s !! i = Some t -> mine t a -> (a <= sequence (mem s))%N;
  s_mine : forall i j t u a, i <> j -> threads s !! i = Some t -> threads s !! j = Some u ->
     mine t a -> ~ mine u a;
}.

Context (Hq : forall ch p, ch ∈ chunks -> p ∈ ch -> exists found, query p = Some found /\ NoDup found).

Lemma sinv_step s i : separated chunks -> sinv s -> sinv (system_step s i) /\
  forall j t, threads s !! j = Some t -> exists t', threads (system_step s i) !! j = Some t' /\ forall a, mine t a -> mine t' a.
Proof.
  intros Hsep [Hd Hl Hf Hle Hb]. unfold ParallelClusterer.system_step. rewrite Hd.
  destruct (threads s !! i) as [t|] eqn:Ei; [|split; [by split|eauto]].
  destruct (lookup_lt_is_Some_2 chunks i) as [ch Hch].
  { rewrite <- Hl. by eapply lookup_lt_Some. }
  destruct (fine_step (mem s) ch (start_plan ch) t) as (m' & t' & Est & Hf' & Hm).
  { intros p. apply Hq. by eapply elem_of_list_lookup_2. }
  { by apply (Hf i). }
  rewrite Est. destruct Hm as [Hseq Hcells Hboxes Hmine Hkeep].
  split; [split; cbn [undefined threads mem]|cbn [threads]].
  - done.
  - by rewrite insert_length.
  - intros j ch' u Hj Hu. destruct (decide (j = i)) as [->|Hne].
    + rewrite list_lookup_insert in Hu by (by eapply lookup_lt_Some). injection Hu as <-.
      rewrite Hch in Hj. by injection Hj as <-.
    + rewrite list_lookup_insert_ne in Hu by done. apply (fine_other (mem s)); [by apply (Hf j)|done| |].
      * intros x Hx. destruct (decide (cells m' !! x = cells (mem s) !! x)) as [|Hc]; [done|].
        destruct (Hcells x Hc) as (_ & p & found & H1 & H2 & H3). exfalso.
        exact (Hsep j i ch' ch x p found Hne Hj Hch Hx H1 H2 H3).
      * intros a Ha Hal. apply Hboxes; [|done]. intros Ht. apply (Hb j i u t a); [done|done|done|by right|by right].
  - intros j u a Hu Ha. destruct (decide (j = i)) as [->|Hne].
    + rewrite list_lookup_insert in Hu by (by eapply lookup_lt_Some). injection Hu as <-.
      destruct (Hmine a Ha) as [Ho|Ho]; [|lia]. specialize (Hle i t a Ei Ho). lia.
    + rewrite list_lookup_insert_ne in Hu by done. specialize (Hle j u a Hu Ha). lia.
  - intros j k u v a Hjk Hu Hv Ha Hva.
    destruct (decide (j = i)) as [->|Hji]; destruct (decide (k = i)) as [->|Hki]; try done.
    + rewrite list_lookup_insert in Hu by (by eapply lookup_lt_Some). injection Hu as <-.
      rewrite list_lookup_insert_ne in Hv by done. destruct (Hmine a Ha) as [Ho|Ho].
      * by apply (Hb i k t v a).
      * pose proof (Hle k v a Hv Hva). lia.
    + rewrite list_lookup_insert in Hv by (by eapply lookup_lt_Some). injection Hv as <-.
      rewrite list_lookup_insert_ne in Hu by done. destruct (Hmine a Hva) as [Ho|Ho].
      * by apply (Hb i j t u a).
      * pose proof (Hle j u a Hu Ha). lia.
    + rewrite list_lookup_insert_ne in Hu, Hv by done. by apply (Hb j k u v a).
  - intros j u Hu. destruct (decide (j = i)) as [->|Hne].
    + rewrite list_lookup_insert by (by eapply lookup_lt_Some). rewrite Ei in Hu. injection Hu as <-. eauto.
    + rewrite list_lookup_insert_ne by done. eauto.
Qed.

Lemma sinv_start : sinv (System m0 (cluster_slice_start query <$> chunks) false).
Proof.
  assert (Hst : forall ch, ch ∈ chunks -> exists l, sort_by_most_number_of_similar_points query ch = Some l /\ l ≡ₚ ch).
  { intros ch Hch. destruct (sort_spec query ch) as (l & E & Hp & _); [|by exists l].
    intros p Hp. destruct (Hq ch p Hch Hp) as (f & Hf & _). eauto. }
  assert (Hno : forall i t a, (cluster_slice_start query <$> chunks) !! i = Some t -> ~ mine t a).
  { intros i t a Ht Ha. rewrite list_lookup_fmap in Ht.
    destruct (chunks !! i) as [ch|] eqn:Ei; [|done]. cbn in Ht. injection Ht as <-.
    unfold cluster_slice_start in Ha. destruct (Hst ch) as (l & E & Hp); [by eapply elem_of_list_lookup_2|].
    rewrite E in Ha. destruct Ha as [Ha|Ha]; [|done]. by apply elem_of_nil in Ha. }
  split; cbn [undefined threads mem].
  - done.
  - by rewrite fmap_length.
  - intros i ch t Hch Ht. rewrite list_lookup_fmap, Hch in Ht. cbn in Ht. injection Ht as <-.
    unfold cluster_slice_start. destruct (Hst ch) as (l & E & Hp); [by eapply elem_of_list_lookup_2|]. rewrite E.
    split; cbn; [|done| |].
    + unfold start_plan. by rewrite E.
    + intros p Hpl. by rewrite <- Hp.
    + intros a own Hin. by apply elem_of_nil in Hin.
  - intros i t a Ht Ha. exfalso. exact (Hno i t a Ht Ha).
  - intros i j t u a Hij Ht Hu Ha. exfalso. exact (Hno i t a Ht Ha).
Qed.

Lemma sinv_run s sched : separated chunks -> sinv s -> sinv (run_schedule s sched) /\
  forall j t, threads s !! j = Some t -> exists t', threads (run_schedule s sched) !! j = Some t' /\ forall a, mine t a -> mine t' a.
Proof.
  intros Hsep. revert s. induction sched as [|i sched IH]; intros s Hs; [split; [done|]; eauto|].
  cbn. destruct (sinv_step s i Hsep Hs) as [Hs' Hk]. destruct (IH _ Hs') as [Hr Hk']. split; [done|].
  intros j t Ht. destruct (Hk j t Ht) as (t1 & Ht1 & H1). destruct (Hk' j t1 Ht1) as (t2 & Ht2 & H2). exists t2. auto.
Qed.

Lemma fine_done m ch total t : fine m ch total t -> at_pc t = Done -> (clusters t).*2 = total.
Proof. intros [Ht _ _ _] E. unfold future in Ht. rewrite E in Ht. by rewrite app_nil_r in Ht. Qed.

(** *** The plan itself *)
Lemma plan_min A td l : l ∈ plan A td -> min <= length l.
Proof.
  revert A. induction td as [|p td IH]; intros A; cbn [plan]; [by intros ?%elem_of_nil|].
  destruct (A p); [apply IH|]. destruct (query p) as [found|]; [|by intros ?%elem_of_nil].
  destruct (min <=? _) eqn:E; [|apply IH].
  intros [->|Hl]%elem_of_cons; [by apply Nat.leb_le|]. by eapply IH.
Qed.

Lemma plan_unassigned A td x l : l ∈ plan A td -> x ∈ l -> A x = false.
Proof.
  revert A. induction td as [|p td IH]; intros A; cbn [plan]; [by intros ?%elem_of_nil|].
  destruct (A p); [apply IH|]. destruct (query p) as [found|]; [|by intros ?%elem_of_nil].
  destruct (min <=? _) eqn:E; [|apply IH].
  intros [->|Hl]%elem_of_cons Hx; [by apply free_elem in Hx as [_ Hx]|].
  specialize (IH _ Hl Hx). unfold plus in IH. by apply orb_false_iff in IH as [IH _].
Qed.

Lemma plan_nodup A td : (forall p, p ∈ td -> exists found, query p = Some found /\ NoDup found) ->
  NoDup (concat (plan A td)).
Proof.
  revert A. induction td as [|p td IH]; intros A Hf; cbn [plan]; [constructor|].
  assert (Hf' : forall p, p ∈ td -> exists found, query p = Some found /\ NoDup found).
  { intros q Hin. apply Hf. by right. }
  destruct (A p); [by apply IH|]. destruct (Hf p) as (found & E & Hnd); [left|]. rewrite E.
  destruct (min <=? _); [|by apply IH]. cbn [concat]. apply NoDup_app. split_and!.
  - unfold free. by apply NoDup_ListNoDup, List.NoDup_filter, NoDup_ListNoDup.
  - intros x Hx Hin. apply elem_of_list_In, in_concat in Hin as (l & Hl & Hxl).
    apply elem_of_list_In in Hl. apply elem_of_list_In in Hxl.
    pose proof (plan_unassigned _ _ _ _ Hl Hxl) as Hu. unfold plus in Hu. apply orb_false_iff in Hu as [_ Hu].
    apply bool_decide_eq_false in Hu. done.
  - by apply IH.
Qed.
Lemma plan_near A td x l : l ∈ plan A td -> x ∈ l -> exists p found, p ∈ td /\ query p = Some found /\ x ∈ found.
Proof.
  revert A. induction td as [|p td IH]; intros A; cbn [plan]; [by intros ?%elem_of_nil|].
  assert (IH' : forall A, l ∈ plan A td -> x ∈ l -> exists q found, q ∈ p :: td /\ query q = Some found /\ x ∈ found).
  { intros A' Hl Hx. destruct (IH A' Hl Hx) as (q & f & ? & ? & ?). exists q, f. split; [by right|done]. }
  destruct (A p); [apply IH'|]. destruct (query p) as [found|] eqn:Eq; [|by intros ?%elem_of_nil].
  destruct (min <=? _) eqn:E; [|apply IH'].
  intros [->|Hl]%elem_of_cons Hx; [|by eapply IH'].
  apply free_elem in Hx as [Hx _]. exists p, found. split; [left|done].
Qed.

Lemma start_plan_facts ch : ch ∈ chunks ->
  NoDup (concat (start_plan ch)) /\
  forall l x, l ∈ start_plan ch -> min <= length l /\
    (x ∈ l -> cells m0 !! x = None /\ exists p found, p ∈ ch /\ query p = Some found /\ x ∈ found).
Proof.
  intros Hch. unfold start_plan.
  destruct (sort_by_most_number_of_similar_points query ch) as [td|] eqn:Es.
  2: { split; [constructor|]. intros l x Hl. by apply elem_of_nil in Hl. }
  pose proof (sort_perm _ _ _ Es) as Hperm. split.
  - apply plan_nodup. intros p Hp. apply (Hq ch); [done|]. by rewrite <- Hperm.
  - intros l x Hl. split; [by eapply plan_min|]. intros Hx. split.
    + pose proof (plan_unassigned _ _ _ _ Hl Hx) as E. unfold asg in E. by destruct (cells m0 !! x).
    + destruct (plan_near _ _ _ _ Hl Hx) as (p & f & H1 & H2 & H3). exists p, f. by rewrite <- Hperm.
Qed.
End Separate.

Section Theorems.
Context {P : Type} `{Countable P}.
Context (query : P -> res (list P)) (min : nat) (checks : bool) (m0 : memory P) (chunks : list (list P)).
Context (Hq : forall ch p, ch ∈ chunks -> p ∈ ch -> exists found, query p = Some found /\ NoDup found).
Context (Hsep : separated query chunks).
Notation run sched := (run_schedule query min checks (System m0 (cluster_slice_start query <$> chunks) false) sched).

Lemma run_sinv sched : sinv query min m0 chunks (run sched).
Proof. apply (sinv_run query min checks m0 chunks Hq); [done|]. by apply sinv_start. Qed.

Lemma alone ch : ch ∈ chunks -> exists k cs, cs.*2 = start_plan query min m0 ch /\
  forall n, k <= n -> result (run_schedule query min checks (cluster_start query m0 ch) (replicate n 0)) = Some cs.
Proof.
  intros Hch. destruct (single_run query min checks m0 ch) as (m' & cs & k & Hrun & _).
  { intros p Hp. by apply (Hq ch). }
  exists k, (pair_of <$> cs). split.
  2: { intros n Hn. rewrite Hrun by done. cbn. by rewrite app_nil_r. }
  assert (Hi : sinv query min m0 [ch] (run_schedule query min checks (cluster_start query m0 ch) (replicate k 0))).
  { change (cluster_start query m0 ch) with (System m0 (cluster_slice_start query <$> [ch]) false).
    apply (sinv_run query min checks m0 [ch]).
    - intros ch' p ->%elem_of_list_singleton Hp. by apply (Hq ch).
    - intros [|i] [|j] c c' x q f Hij Hi Hj; by rewrite ?lookup_nil in *.
    - apply sinv_start. intros ch' p ->%elem_of_list_singleton Hp. by apply (Hq ch). }
  rewrite Hrun in Hi by done.
  pose proof (s_fine _ _ _ _ _ Hi 0 ch _ eq_refl eq_refl) as Hf.
  exact (fine_done _ _ _ _ _ _ Hf eq_refl).
Qed.

Lemma thread_of s i ch : sinv query min m0 chunks s -> chunks !! i = Some ch -> exists t, threads s !! i = Some t.
Proof.
  intros Hi Hch. apply lookup_lt_is_Some_2. rewrite (s_len _ _ _ _ _ Hi). by eapply lookup_lt_Some.
Qed.

Lemma result_plan sched cs : result (run sched) = Some cs ->
  cs.*2 = concat (start_plan query min m0 <$> chunks) /\
  forall i ch, chunks !! i = Some ch -> exists t, threads (run sched) !! i = Some t /\ (clusters t).*2 = start_plan query min m0 ch.
Proof.
  pose proof (run_sinv sched) as Hi. unfold result. destruct (forallb is_done _) eqn:Ed; [|done].
  rewrite (s_def _ _ _ _ _ Hi). intros [= <-]. rewrite forallb_forall in Ed.
  assert (Hall : forall i ch, chunks !! i = Some ch -> exists t, threads (run sched) !! i = Some t /\ (clusters t).*2 = start_plan query min m0 ch).
  { intros i ch Hch. destruct (thread_of _ _ _ Hi Hch) as [t Ht]. exists t. split; [done|].
    eapply fine_done; [by apply (s_fine _ _ _ _ _ Hi i)|].
    specialize (Ed t). unfold is_done in Ed. destruct (at_pc t); try done; exfalso;
      (assert (false = true) by (apply Ed, elem_of_list_In, elem_of_list_lookup; eauto); done). }
  split; [|done].
  assert (E : forall ts : list (thread P), (concat (clusters <$> ts)).*2 = concat ((fun t => (clusters t).*2) <$> ts)).
  { induction ts as [|t ts IH]; [done|]. cbn. by rewrite fmap_app, IH. }
  rewrite E. f_equal. apply list_eq. intros i. rewrite !list_lookup_fmap.
  destruct (chunks !! i) as [ch|] eqn:Ei.
  - destruct (Hall i ch Ei) as (t & Ht & Hc). rewrite Ht. cbn. by rewrite Hc.
  - apply lookup_ge_None in Ei. rewrite lookup_ge_None_2; [done|]. by rewrite (s_len _ _ _ _ _ Hi).
Qed.

Lemma separate_alone sched cs : result (run sched) = Some cs ->
  forall i ch, chunks !! i = Some ch -> exists t k cs', threads (run sched) !! i = Some t /\ (clusters t).*2 = cs'.*2 /\
    forall n, k <= n -> result (run_schedule query min checks (cluster_start query m0 ch) (replicate n 0)) = Some cs'.
Proof.
  intros Hr i ch Hch. destruct (proj2 (result_plan _ _ Hr) i ch Hch) as (t & Ht & Hc).
  destruct (alone ch) as (k & cs' & H1 & H2); [by eapply elem_of_list_lookup_2|].
  exists t, k, cs'. split; [done|]. split; [by rewrite H1|done].
Qed.

Lemma separate_defined sched : undefined (run sched) = false /\
  forall i t, threads (run sched) !! i = Some t -> at_pc t <> Panicked.
Proof.
  pose proof (run_sinv sched) as Hi. split; [by apply (s_def _ _ _ _ _ Hi)|].
  intros i t Ht E. destruct (lookup_lt_is_Some_2 chunks i) as [ch Hch].
  { rewrite <- (s_len _ _ _ _ _ Hi). by eapply lookup_lt_Some. }
  pose proof (f_pc _ _ _ _ _ _ (s_fine _ _ _ _ _ Hi i ch t Hch Ht)) as Hp. by rewrite E in Hp.
Qed.

Lemma separate_clusters sched cs : result (run sched) = Some cs ->
  NoDup (concat cs.*2) /\
  forall a own, (a, own) ∈ cs -> min <= length own /\
    forall x, x ∈ own -> cells m0 !! x = None /\ cells (mem (run sched)) !! x = Some a.
Proof.
  intros Hr. destruct (result_plan _ _ Hr) as [E Hall]. pose proof (run_sinv sched) as Hi. split.
  - rewrite E.
    assert (Ec : forall L : list (list (list P)), concat (concat L) = concat ((@concat P) <$> L)).
    { induction L as [|l L IH]; [done|]. cbn. by rewrite concat_app, IH. }
    rewrite Ec, <- list_fmap_compose. apply NoDup_concat_disjoint.
    + intros i l. rewrite list_lookup_fmap. intros (ch & Hch & ->)%fmap_Some.
      apply (start_plan_facts query min m0 chunks Hq). by eapply elem_of_list_lookup_2.
    + intros i j l k x Hij. rewrite !list_lookup_fmap. intros (ch & Hch & ->)%fmap_Some (ch' & Hch' & ->)%fmap_Some.
      unfold compose. intros Hx Hx'.
      apply elem_of_list_In, in_concat in Hx as (o & Ho%elem_of_list_In & Hx%elem_of_list_In).
      apply elem_of_list_In, in_concat in Hx' as (o' & Ho'%elem_of_list_In & Hx'%elem_of_list_In).
      destruct (start_plan_facts query min m0 chunks Hq ch) as [_ F]; [by eapply elem_of_list_lookup_2|].
      destruct (start_plan_facts query min m0 chunks Hq ch') as [_ F']; [by eapply elem_of_list_lookup_2|].
      destruct (proj2 (F o x Ho) Hx) as (_ & p & f & H1 & H2 & H3).
      destruct (proj2 (F' o' x Ho') Hx') as (_ & p' & f' & H1' & H2' & H3').
      eapply (Hsep i j ch ch' x p' f'); try done. by eapply near_found.
  - assert (Hcs : cs = concat (clusters <$> threads (run sched))).
    { unfold result in Hr. destruct (forallb _ _ && _)%bool; [|done]. by injection Hr. }
    intros a own Hin. rewrite Hcs in Hin. apply elem_of_list_In, in_concat in Hin as (cl & Hcl%elem_of_list_In & Hin%elem_of_list_In).
    apply elem_of_list_fmap in Hcl as (t & -> & Ht). apply elem_of_list_lookup in Ht as [i Ht].
    destruct (lookup_lt_is_Some_2 chunks i) as [ch Hch].
    { rewrite <- (s_len _ _ _ _ _ Hi). by eapply lookup_lt_Some. }
    destruct (Hall i ch Hch) as (t' & Ht' & Hc). rewrite Ht in Ht'. injection Ht' as <-.
    destruct (start_plan_facts query min m0 chunks Hq ch) as [_ F]; [by eapply elem_of_list_lookup_2|].
    assert (Hown : own ∈ start_plan query min m0 ch).
    { rewrite <- Hc. apply elem_of_list_fmap. by exists (a, own). }
    pose proof (s_fine _ _ _ _ _ Hi i ch t Hch Ht) as Hf.
    split.
    + destruct own as [|x own]; [|by apply (F _ x Hown)].
      unfold start_plan in Hown. destruct (sort_by_most_number_of_similar_points query ch); [|by apply elem_of_nil in Hown].
      by eapply plan_min.
    + intros x Hx. split; [by apply (F own x Hown)|]. by apply (proj1 (f_held _ _ _ _ _ _ Hf a own Hin)).
Qed.

Lemma separate_finishes sched :
  (forall i ch, chunks !! i = Some ch ->
     2 + sum_list ((fun p => let n := match query p with Some found => length found | None => 0 end in
                             n * (n + 10) + 2 * n + 9) <$> ch) <= length (filter (fun j => j = i) sched)) ->
  is_Some (result (run sched)).
Proof.
  intros Hlen. pose proof (run_sinv sched) as Hi. destruct (separate_defined sched) as [Hd Hnp].
  unfold result. rewrite Hd.
  assert (E : forallb is_done (threads (run sched)) = true).
  { apply forallb_forall. intros t Ht%elem_of_list_In. apply elem_of_list_lookup in Ht as [i Ht].
    destruct (lookup_lt_is_Some_2 chunks i) as [ch Hch].
    { rewrite <- (s_len _ _ _ _ _ Hi). by eapply lookup_lt_Some. }
    destruct (wait_free query min checks m0 chunks sched i ch Hch (Hlen i ch Hch)) as [Hu|(t' & Ht' & Hdone)].
    - rewrite Hd in Hu. done.
    - rewrite Ht in Ht'. injection Ht' as <-. destruct Hdone as [Hdone|Hdone]; [unfold is_done; by rewrite Hdone|].
      by apply Hnp in Ht. }
  rewrite E. cbn. eauto.
Qed.

Lemma run_split n n' sched : n <= n' -> run (take n' sched) = run_schedule query min checks (run (take n sched)) (take (n' - n) (drop n sched)).
Proof.
  intros Hn. rewrite <- run_schedule_app. f_equal. rewrite <- (take_drop n (take n' sched)).
  rewrite take_take, take_drop_commute. f_equal.
  - by rewrite Nat.min_l.
  - by replace (n + (n' - n)) with n' by lia.
Qed.

Lemma uses_mine m ch total t a : fine query min m ch total t -> uses_box t = Some a -> mine t a.
Proof.
  intros [_ Hp _ _]. unfold uses_box, mine. destruct (at_pc t) as [| | |b own [|x rest] i| | | | | | | | | |]; cbn in *; try done; by right.
Qed.

Lemma no_sharing_boxes n n' sched i j t u a : i <> j ->
  threads (run (take n sched)) !! i = Some t -> threads (run (take n' sched)) !! j = Some u ->
  uses_box t = Some a -> uses_box u <> Some a.
Proof.
  assert (Hw : forall n n' i j t u, n <= n' -> i <> j ->
    threads (run (take n sched)) !! i = Some t -> threads (run (take n' sched)) !! j = Some u -> mine t a -> ~ mine u a).
  { clear n n' i j t u. intros n n' i j t u Hn Hij Ht Hu Ha Hb. rewrite (run_split n n' sched Hn) in Hu.
    destruct (sinv_run query min checks m0 chunks Hq (run (take n sched)) (take (n' - n) (drop n sched)) Hsep (run_sinv _)) as [Hs Hk].
    destruct (Hk i t Ht) as (t' & Ht' & Hm). apply (s_mine _ _ _ _ _ Hs i j t' u a); auto. }
  assert (Hm : forall n i t, threads (run (take n sched)) !! i = Some t -> uses_box t = Some a -> mine t a).
  { clear n n' i j t u. intros n i t Ht Ha. pose proof (run_sinv (take n sched)) as Hi.
    destruct (lookup_lt_is_Some_2 chunks i) as [ch Hch].
    { rewrite <- (s_len _ _ _ _ _ Hi). by eapply lookup_lt_Some. }
    eapply uses_mine; [|done]. by apply (s_fine _ _ _ _ _ Hi i). }
  intros Hij Ht Hu Ha Hb. destruct (Nat.le_ge_cases n n').
  - apply (Hw n n' i j t u); eauto.
  - apply (Hw n' n j i u t); eauto.
Qed.

Lemma no_sharing_cells n n' sched i j t u p : i <> j ->
  threads (run (take n sched)) !! i = Some t -> threads (run (take n' sched)) !! j = Some u ->
  writes_cell t = Some p -> reads_cell u <> Some p /\ writes_cell u <> Some p.
Proof.
  intros Hij Ht Hu Hw.
  assert (Hc : forall n i t, threads (run (take n sched)) !! i = Some t -> exists ch, chunks !! i = Some ch /\
     (forall p, p ∈ todo t -> p ∈ ch) /\ pc_fine query (mem (run (take n sched))) ch (at_pc t)).
  { clear n n' i j t u Hij Ht Hu Hw. intros n i t Ht. pose proof (run_sinv (take n sched)) as Hi.
    destruct (lookup_lt_is_Some_2 chunks i) as [ch Hch].
    { rewrite <- (s_len _ _ _ _ _ Hi). by eapply lookup_lt_Some. }
    exists ch. split; [done|]. pose proof (s_fine _ _ _ _ _ Hi i ch t Hch Ht) as [_ H1 H2 _]. done. }
  destruct (Hc _ _ _ Ht) as (ch & Hch & _ & Hp). destruct (Hc _ _ _ Hu) as (ch' & Hch' & Htd & Hp').
  assert (Hfound : exists q found, q ∈ ch /\ query q = Some found /\ p ∈ found).
  { unfold writes_cell in Hw. destruct (at_pc t) as [| | | | |a own rest k| | | | | | | |]; cbn in Hp; try done.
    destruct rest as [|y rest]; [done|]. injection Hw as ->.
    destruct Hp as (_ & _ & _ & _ & _ & q & f & H1 & H2 & H3). exists q, f. split_and!; [done|done|]. apply H3. set_solver. }
  destruct Hfound as (q & found & H1 & H2 & H3).
  assert (Hno : ~ near query ch' p).
  { intros Hn. by apply (Hsep j i ch' ch p q found). }
  split.
  - unfold reads_cell. intros E. apply Hno. destruct (at_pc u) as [|qs acc| | | | | | | | | | | |]; try done.
    + destruct (todo u) as [|y td]; [done|]. injection E as ->. exists p. split; [apply Htd; left|by left].
    + destruct qs as [|y qs]; [done|]. injection E as ->. cbn in Hp'.
      destruct Hp' as (_ & _ & q' & f' & pre & H1' & H2' & -> & _). eapply near_found; [done|done|]. set_solver.
  - unfold writes_cell. intros E. apply Hno. destruct (at_pc u) as [| | | | |a own rest k| | | | | | | |]; cbn in Hp'; try done.
    destruct rest as [|y rest]; [done|]. injection E as ->.
    destruct Hp' as (_ & _ & _ & _ & _ & q' & f & H1' & H2' & H3'). eapply near_found; [done|done|]. apply H3'. set_solver.
Qed.
End Theorems.
