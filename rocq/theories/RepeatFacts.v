(** The clusterers called more than once, compared, and with other sizes. *)
From stdpp Require Import base list gmap relations.
From Coq Require Import NArith Sorted.
From Verif Require Import ListFacts Base SerialClusterer SerialClustererFacts ParallelClusterer
  ParallelClustererFacts ParallelClustererSingle.
Local Open Scope nat_scope.

Section Repeat.
Context {P : Type} `{Countable P}.
Implicit Types (m : gmap P N) (c : cluster P) (cs : list (cluster P)) (query : P -> option (list P)).
Notation free m := (fun x => match (m : gmap P N) !! x with None => true | _ => false end).

(** The clusters made are put behind those that were there. *)
Lemma greedy_acc query big points seq m cs :
  greedy query big points seq m cs =
  ((greedy query big points seq m []).1, app cs <$> (greedy query big points seq m []).2).
Proof.
  revert seq m cs. induction points as [|p points IH]; intros seq m cs.
  - cbn. by rewrite app_nil_r.
  - cbn [greedy]. destruct (m !! p); [apply IH|]. destruct (query p) as [found|]; [|done].
    cbn zeta. destruct (big _).
    + rewrite IH, (IH _ _ ([] ++ _)). cbn [fst snd]. f_equal.
      destruct (greedy query big points _ _ []).2; cbn; [|done]. by rewrite <- app_assoc.
    + apply IH.
Qed.

(** Two lists of points one after the other. *)
Lemma greedy_app query big ps1 ps2 seq m cs :
  greedy query big (ps1 ++ ps2) seq m cs =
  match greedy query big ps1 seq m cs with
  | (m1, Some cs1) => greedy query big ps2 (seq + N.of_nat (length cs1 - length cs)) m1 cs1
  | r => r
  end.
Proof.
  assert (Hlen : forall ps seq m cs m1 cs1, greedy query big ps seq m cs = (m1, Some cs1) -> length cs <= length cs1).
  { intros ps sq m0 cs0 m1 cs1. rewrite greedy_acc. intros [= _ E]. destruct (_.2); [|done]. injection E as <-.
    rewrite app_length. lia. }
  revert seq m cs. induction ps1 as [|p ps1 IH]; intros seq m cs.
  - cbn [app greedy]. f_equal. lia.
  - cbn [app greedy]. destruct (m !! p); [apply IH|]. destruct (query p) as [found|]; [|done].
    cbn zeta. destruct (big _); [|apply IH]. rewrite IH.
    destruct (greedy query big ps1 _ _ _) as [m1 [cs1|]] eqn:E; [|done]. apply Hlen in E.
    rewrite app_length in *. cbn [length] in *. f_equal. lia.
Qed.

(** What is free decides, not by which clusters the points are taken. *)
Lemma greedy_alike query big points seq seq' m m' cs cs' :
  (forall p, m !! p = None <-> m' !! p = None) -> map c_points cs = map c_points cs' ->
  let x := greedy query big points seq m cs in let y := greedy query big points seq' m' cs' in
  (forall p, x.1 !! p = None <-> y.1 !! p = None) /\ option_map (map c_points) x.2 = option_map (map c_points) y.2.
Proof.
  revert seq seq' m m' cs cs'. induction points as [|p points IH]; intros seq seq' m m' cs cs' Hm Hcs.
  - split; [exact Hm|]. cbn. by rewrite Hcs.
  - cbn [greedy]. destruct (m !! p) eqn:E, (m' !! p) eqn:E'.
    + by apply IH.
    + exfalso. rewrite (proj2 (Hm p) E') in E. done.
    + exfalso. rewrite (proj1 (Hm p) E) in E'. done.
    + destruct (query p) as [f|]; [|done].
      cbn zeta. assert (Hf : List.filter (free m) f = List.filter (free m') f).
      { apply filter_ext. intros x. specialize (Hm x). destruct (m !! x), (m' !! x);
          [done|discriminate (proj2 Hm eq_refl)|discriminate (proj1 Hm eq_refl)|done]. }
      rewrite Hf. destruct (big _); [|by apply IH].
      destruct (create_new_cluster_spec (List.filter (free m') f) (seq + 1)%N m []) as [E1 E2].
      destruct (create_new_cluster_spec (List.filter (free m') f) (seq' + 1)%N m' []) as [E1' E2'].
      apply IH.
      * intros x. rewrite E2, E2'. destruct (decide _); [done|apply Hm].
      * rewrite !map_app, Hcs. cbn. by rewrite E1, E1'.
Qed.
Lemma filter_perm_ext (f g : P -> bool) (l l' : list P) : (forall x, f x = g x) -> l ≡ₚ l' -> List.filter f l ≡ₚ List.filter g l'.
Proof.
  intros Hfg Hl. induction Hl as [|x l l' _ IH|x y l|l1 l2 l3 H1 IH1 _ IH2]; cbn.
  - done.
  - rewrite <- (Hfg x). destruct (f x); [by rewrite IH|done].
  - rewrite <- !Hfg. assert (E : List.filter g l ≡ₚ List.filter f l).
    { clear -Hfg. induction l as [|z l IH]; [done|]. cbn. rewrite <- Hfg. destruct (f z); by rewrite IH. }
    destruct (f x), (f y); rewrite E; [apply perm_swap|done..].
  - rewrite IH1, <- IH2. clear -Hfg. induction l2 as [|z l IH]; [done|]. cbn. rewrite <- Hfg. destruct (f z); by rewrite IH.
Qed.
(** The order of the answers does not matter. *)
Lemma greedy_order query query' big points seq m cs cs' :
  (forall p, p ∈ points -> match query p, query' p with Some f, Some f' => f ≡ₚ f' | None, None => True | _, _ => False end) ->
  Forall2 (fun c c' => c_id c = c_id c' /\ c_points c ≡ₚ c_points c') cs cs' ->
  (greedy query big points seq m cs).1 = (greedy query' big points seq m cs').1 /\
  match (greedy query big points seq m cs).2, (greedy query' big points seq m cs').2 with
  | Some cs, Some cs' => Forall2 (fun c c' => c_id c = c_id c' /\ c_points c ≡ₚ c_points c') cs cs'
  | None, None => True
  | _, _ => False
  end.
Proof.
  revert seq m cs cs'. induction points as [|p points IH]; intros seq m cs cs' Hq Hcs.
  - by split.
  - assert (Hq' : forall p, p ∈ points -> match query p, query' p with Some f, Some f' => f ≡ₚ f' | None, None => True | _, _ => False end).
    { intros x Hx. apply Hq. by right. }
    cbn [greedy]. destruct (m !! p); [by apply IH|].
    specialize (Hq p (elem_of_list_here p points)). destruct (query p) as [f|], (query' p) as [f'|]; try done.
    cbn zeta. assert (Hf : List.filter (free m) f ≡ₚ List.filter (free m) f') by by apply filter_perm_ext.
    rewrite (Permutation_length Hf). destruct (big _); [|by apply IH].
    destruct (create_new_cluster_spec (List.filter (free m) f) (seq + 1)%N m []) as [E1 E2].
    destruct (create_new_cluster_spec (List.filter (free m) f') (seq + 1)%N m []) as [E1' E2'].
    assert (E : (create_new_cluster (List.filter (free m) f) (seq + 1)%N m []).2 =
                (create_new_cluster (List.filter (free m) f') (seq + 1)%N m []).2).
    { apply map_eq. intros x. rewrite E2, E2'.
      destruct (decide (x ∈ List.filter (free m) f)) as [Hx|Hx]; rewrite Hf in Hx;
        [by rewrite decide_True by done|by rewrite decide_False by done]. }
    rewrite E. apply IH; [done|]. apply Forall2_app; [done|]. constructor; [|done]. by rewrite E1, E1'.
Qed.

(** Nothing is done if no free point has enough free points around it. *)
Lemma greedy_nothing query big points seq m cs :
  (forall p, p ∈ points -> m !! p = None -> exists found, query p = Some found /\ big (length (List.filter (free m) found)) = false) ->
  greedy query big points seq m cs = (m, Some cs).
Proof.
  induction points as [|p points IH]; intros Hq; [done|]. cbn [greedy].
  assert (Hq' := fun p Hp => Hq p (elem_of_list_further _ _ _ Hp)).
  destruct (m !! p) eqn:E; [by apply IH|].
  destruct (Hq p (elem_of_list_here p points) E) as (found & -> & Hb). cbn zeta. rewrite Hb. by apply IH.
Qed.

(** Points that are taken from the start play no part. *)
Lemma greedy_assigned query big points seq m m0 cs : (forall x, is_Some (m0 !! x) -> is_Some (m !! x)) ->
  greedy query big points seq m cs = greedy query big (filter (fun p => m0 !! p = None) points) seq m cs.
Proof.
  revert seq m cs. induction points as [|p points IH]; intros seq m cs Hm; [done|].
  rewrite filter_cons. destruct (decide (m0 !! p = None)) as [E|E].
  - cbn [greedy]. destruct (m !! p); [by apply IH|]. destruct (query p) as [found|]; [|done].
    cbn zeta. destruct (big _); [|by apply IH]. apply IH. intros x Hx.
    rewrite (proj2 (create_new_cluster_spec _ _ _ _)). destruct (decide _); [done|by apply Hm].
  - cbn [greedy]. destruct (Hm p) as [a ->]; [by apply not_eq_None_Some|]. by apply IH.
Qed.

(** A stricter test that all clusters pass makes no difference. *)
Lemma greedy_stricter query (big big' : nat -> bool) points seq m m' cs new :
  (forall n, big' n = true -> big n = true) ->
  greedy query big points seq m cs = (m', Some (cs ++ new)) -> Forall (fun c => big' (length (c_points c)) = true) new ->
  greedy query big' points seq m cs = (m', Some (cs ++ new)).
Proof.
  intros Hb. revert seq m cs new. induction points as [|p points IH]; intros seq m cs new E Hnew; [done|].
  cbn [greedy] in E |- *. destruct (m !! p); [by apply IH|]. destruct (query p) as [found|]; [|done].
  cbn zeta in E |- *. set (sim := List.filter _ found) in *.
  destruct (create_new_cluster_spec sim (seq + 1)%N m []) as [E1 _].
  destruct (big (length sim)) eqn:Eb.
  - pose proof E as E'. rewrite greedy_acc in E'. injection E' as _ E'. apply fmap_Some in E' as (more & _ & E').
    rewrite <- app_assoc in E'. apply app_inv_head in E'. subst new. cbn [app] in Hnew.
    apply Forall_cons in Hnew as [Hc Hmore]. rewrite E1 in Hc. cbn [c_points app] in Hc. rewrite Hc.
    change (cs ++ [(create_new_cluster sim (seq + 1)%N m []).1] ++ more) with (cs ++ ([(create_new_cluster sim (seq + 1)%N m []).1] ++ more)) in *.
    rewrite app_assoc in *. by apply IH.
  - destruct (big' (length sim)) eqn:Eb'; [by rewrite (Hb _ Eb') in Eb|]. by apply IH.
Qed.

(** One thread of the parallel clusterer does what the loop does on the sorted points. *)
Lemma single_greedy query (min : nat) (checks : bool) (m : memory P) points sorted :
  (forall p, p ∈ points -> exists found, query p = Some found /\ NoDup found) ->
  sort_by_most_number_of_similar_points query points = Some sorted ->
  exists (mc : gmap P N) cs (m' : memory P) (k : nat), greedy query (fun n => min <=? n) sorted (sequence m) (cells m) [] = (mc, Some cs) /\
    (forall n, k <= n -> run_schedule query min checks (cluster_start query m points) (replicate n 0)
                         = System m' [Thread Done [] (pair_of <$> cs)] false) /\
    cells m' = mc /\ (sequence m' = sequence m + N.of_nat (length cs))%N /\
    (forall a, (a <= sequence m)%N -> boxes m' !! a = boxes m !! a).
Proof.
  intros Hq Es. unfold cluster_start, cluster_slice_start. rewrite Es.
  pose proof (sort_perm _ _ _ Es) as Hperm.
  destruct (greedy_ok query (fun n => min <=? n) points sorted (sequence m) (cells m) (cells m) []
    (sequence m)) as (mc & cs & seq' & E & Hi & _ & _).
  { intros n j Hn Hj. apply Nat.leb_gt in Hn. apply Nat.leb_gt. lia. }
  { intros p. by rewrite Hperm. }
  { intros p. rewrite Hperm. apply Hq. }
  { apply linv_start. }
  destruct (single_loop query min checks sorted m [] mc cs) as (m' & new & Hr & Hc & Hcs & Hs & Hb & _ & Hold);
    [intros p; rewrite Hperm; apply Hq|done|].
  cbn [app] in Hcs. subst new.
  destruct (rtc_schedule _ _ _ _ _ Hr) as [k Hk]. exists mc, cs, m', k. split; [done|]. split; [|done].
  intros n Hn. replace n with (k + (n - k)) by lia. rewrite replicate_add, run_schedule_app.
    cbn [fst snd] in Hk. change (@nil (N * list P)) with (@pair_of P <$> []). rewrite Hk. apply done_stable.
Qed.
End Repeat.
