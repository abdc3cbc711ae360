(** Lemmas about the conversion of Python arguments. *)
From stdpp Require Import base list gmap strings.
From Coq Require Import NArith ZArith Ascii Lia.
From Verif Require Import Base Float Container MinHasher Params StringIndex PyTokenizer PyMinHash PyArgs SpecPyArgs.

(** ** Conversions decide between [good] and [bad] *)
Definition decides {A B} (conv : A -> outcome B) (good : A -> B -> Prop) (bad : A -> exn -> Prop) : Prop :=
  (forall a b, conv a = Ret b <-> good a b) /\ (forall a e, conv a = Raise e <-> bad a e).

Lemma bind_ret {A B} (x : outcome A) (f : A -> outcome B) b :
  x ≫= f = Ret b <-> exists a, x = Ret a /\ f a = Ret b.
Proof.
  destruct x as [a|e]; cbn [mbind outcome_bind].
  - split; [eauto|]. by intros (a' & [= <-] & H).
  - split; [done|]. by intros (a' & H & _).
Qed.
Lemma bind_raise {A B} (x : outcome A) (f : A -> outcome B) e :
  x ≫= f = Raise e <-> x = Raise e \/ exists a, x = Ret a /\ f a = Raise e.
Proof.
  destruct x as [a|e']; cbn [mbind outcome_bind].
  - split; [eauto|]. intros [[=]|(a' & [= <-] & H)]. done.
  - split; [by intros [= <-]; left|]. by intros [[= <-]|(a' & H & _)].
Qed.

Lemma mapM_ret {A B} (conv : A -> outcome B) good bad l bs : decides conv good bad ->
  mapM conv l = Ret bs <-> Forall2 good l bs.
Proof.
  intros [Hg _]. revert bs. induction l as [|a l IH]; intros bs; cbn [mapM].
  - split; [by intros [= <-]|]. intros H. inversion H. done.
  - rewrite bind_ret. split.
    + intros (b & Hb & H). apply bind_ret in H as (bs' & H1 & [= <-]).
      constructor; [by apply Hg|by apply IH].
    + intros H. inversion H as [|? b ? bs' H1 H2]; subst. exists b. split; [by apply Hg|].
      apply bind_ret. exists bs'. split; [by apply IH|done].
Qed.
Lemma mapM_raise {A B} (conv : A -> outcome B) good bad l e : decides conv good bad ->
  mapM conv l = Raise e <-> first_bad good bad l e.
Proof.
  intros [Hg Hb]. induction l as [|a l IH]; cbn [mapM].
  - split; [done|]. intros (l1 & x & l2 & H & _). by destruct l1.
  - rewrite bind_raise. split.
    + intros [H|(b & H1 & H2)].
      * exists [], a, l. split; [done|]. split; [constructor|by apply Hb].
      * apply bind_raise in H2 as [H2|(? & _ & [=])]. apply IH in H2 as (l1 & x & l2 & -> & Hl & Hx).
        exists (a :: l1), x, l2. split; [done|]. split; [|done]. constructor; [|done]. exists b. by apply Hg.
    + intros (l1 & x & l2 & E & Hl & Hx). destruct l1 as [|a' l1]; injection E as -> ->.
      * left. by apply Hb.
      * right. inversion Hl as [|? ? [b H1] H2]; subst. exists b. split; [by apply Hg|].
        apply bind_raise. left. apply IH. exists l1, x, l2. done.
Qed.

Lemma in_range_ret lo hi z z' : in_range lo hi z = Ret z' <-> z' = z /\ (lo <= z < hi)%Z.
Proof.
  unfold in_range. destruct (Z.leb_spec lo z); destruct (Z.ltb_spec z hi); cbn [andb];
    (split; [intros H1; inversion H1; (split; [done|lia])|intros [-> ?]; (done || lia)]).
Qed.
Lemma in_range_raise lo hi z e : in_range lo hi z = Raise e <-> e = EOverflowError /\ ~ (lo <= z < hi)%Z.
Proof.
  unfold in_range. destruct (Z.leb_spec lo z); destruct (Z.ltb_spec z hi); cbn [andb];
    (split; [intros H1; inversion H1; (split; [done|lia])|intros [-> ?]; (done || lia)]).
Qed.

Lemma to_int_ret lo hi v z : to_int lo hi v = Ret z <-> whole v z /\ (lo <= z < hi)%Z.
Proof.
  destruct v as [|[]|x| | | | | |]; cbn [to_int];
    try (split; [done|]; intros [H _]; inversion H; fail).
  all: rewrite in_range_ret; split; [intros [-> ?]; split; [constructor|done]|intros [H ?]; inversion H; subst; done].
Qed.
Lemma to_int_raise lo hi v e : to_int lo hi v = Raise e <->
  (exists z, whole v z /\ ~ (lo <= z < hi)%Z /\ e = EOverflowError) \/ (~ exists z, whole v z) /\ e = ETypeError.
Proof.
  destruct v as [|[]|x| | | | | |]; cbn [to_int].
  all: try (split; [intros [= <-]; right; split; [|done]; intros [z H]; inversion H
                   |intros [(z & H & _)|[_ ->]]; [inversion H|done]]; fail).
  all: rewrite in_range_raise; split;
    [intros [-> ?]; left; eexists; split; [constructor|done]
    |intros [(z & H & ? & ->)|[H _]]; [inversion H; subst; done|exfalso; apply H; eexists; constructor]].
Qed.

Lemma i64_decides : decides to_i64 id_is id_bad.
Proof. split; intros; [apply to_int_ret|apply to_int_raise]. Qed.

Lemma surrogate_plain t : existsb is_surrogate t = false <-> Forall plain t.
Proof.
  induction t as [|c t IH]; cbn [existsb].
  - split; [constructor|done].
  - assert (Hc : is_surrogate c = false <-> plain c).
    { unfold is_surrogate, plain. destruct (N.leb_spec 55296 c); destruct (N.ltb_spec c 57344); cbn [andb];
        split; intros; (done || lia). }
    rewrite orb_false_iff, IH, Hc. split; [intros [? ?]; by constructor|intros H; by inversion H].
Qed.
Lemma str_decides : decides to_str doc_is doc_bad.
Proof.
  split; intros v r; destruct v as [| | | |t| | | |]; cbn [to_str].
  all: try (split; [done|]; intros [H _]; done).
  all: try (split; [intros [= <-]; right; split; [|done]; by intros [t [=]]
                   |intros [(t & [=] & _)|[_ ->]]; done]; fail).
  - unfold doc_is. rewrite <- surrogate_plain. destruct (existsb is_surrogate t) eqn:E.
    + split; [done|]. intros [[= ->] H]. congruence.
    + split; [by intros [= <-]|]. by intros [[= ->] _].
  - unfold doc_bad. destruct (existsb is_surrogate t) eqn:E.
    + split.
      * intros [= <-]. left. exists t. split; [done|]. split; [|done]. rewrite <- surrogate_plain. congruence.
      * intros [(t' & _ & _ & ->)|[H _]]; [done|]. exfalso. eauto.
    + split; [done|]. intros [(t' & [= <-] & H & _)|[H _]].
      * by rewrite <- surrogate_plain in H.
      * exfalso. eauto.
Qed.

Lemma vec_decides {B} (conv : pyval -> outcome B) good bad : decides conv good bad ->
  decides (to_vec conv) (seq_is good) (seq_bad good bad).
Proof.
  intros Hd. split.
  - intros v bs.
    assert (H : forall vs, sequence v vs -> (mapM conv vs = Ret bs <-> seq_is good v bs)).
    { intros vs Hv. rewrite (mapM_ret _ _ _ _ _ Hd). split; [by exists vs|].
      intros (vs' & [Hs|Hs] & H); destruct Hv; congruence. }
    destruct v; cbn [to_vec]; try (apply H; unfold sequence; auto; fail);
      (split; [done|]; intros (vs & [[=]|[=]] & _)).
  - intros v e.
    assert (H : forall vs, sequence v vs -> (mapM conv vs = Raise e <-> seq_bad good bad v e)).
    { intros vs Hv. rewrite (mapM_raise _ _ _ _ _ Hd). split; [intros ?; left; by exists vs|].
      intros [(vs' & [Hs|Hs] & H)|[H _]]; [destruct Hv; congruence..|]. exfalso. eauto. }
    destruct v; cbn [to_vec]; try (apply H; unfold sequence; auto; fail).
    all: split; [intros [= <-]; right; split; [|done]; intros (vs & [[=]|[=]])
                |intros [(vs & [[=]|[=]] & _)|[_ ->]]; done].
Qed.
Lemma list_decides {B} (conv : pyval -> outcome B) good bad : decides conv good bad ->
  decides (fun vs => to_vec conv (VList vs)) (Forall2 good) (first_bad good bad).
Proof. intros Hd. split; intros; [by eapply mapM_ret|by eapply mapM_raise]. Qed.

Lemma iter_ret v vs : py_iter v = Ret vs <-> iterable v vs.
Proof.
  unfold iterable, sequence. destruct v; cbn [py_iter].
  all: try (split; [done|]; intros [[[=]|[=]]|[[=]|(t & [=] & _)]]; fail).
  all: try (split; [intros [= <-]; auto|]; intros [[[=]|[=]]|[[=]|(t & [=] & _)]]; by subst).
  split; [intros [= <-]; right; right; eauto|]. intros [[[=]|[=]]|[[=]|(t & [= <-] & ->)]]. done.
Qed.
Lemma iter_raise v e : py_iter v = Raise e <-> (~ exists vs, iterable v vs) /\ e = ETypeError.
Proof.
  pose proof (iter_ret v) as Hr. destruct (py_iter v) as [vs|e'] eqn:E.
  - split; [done|]. intros [H _]. exfalso. apply H. exists vs. by apply Hr.
  - assert (e' = ETypeError) as -> by (destruct v; cbn [py_iter] in E; congruence).
    split; [|by intros [_ ->]]. intros [= <-]. split; [|done]. intros [vs H]. by apply Hr in H.
Qed.

Lemma call_decides f : decides f (returns f) (throws f).
Proof. by split. Qed.

(** ** Calls *)
Local Notation I := i64_decides.
Local Notation S := str_decides.
Local Notation IV := (vec_decides _ _ _ i64_decides).
Local Notation SV := (vec_decides _ _ _ str_decides).

Lemma dyn_call_ret an o c : dyn_call an o = Ret c <-> accepted an o c.
Proof.
  split.
  - intros H. destruct o as [id doc|s1 s2 ids docs|id]; [destruct an as [|f]..|]; cbn [dyn_call] in H;
      repeat (apply bind_ret in H as (? & ?Hx & H)); injection H as <-.
    + constructor; [by apply I|by apply S].
    + econstructor; [done|by apply I|by apply SV].
    + constructor; [by apply IV|by apply SV].
    + econstructor; [by apply iter_ret|by eapply (mapM_ret _ _ _ _ _ (call_decides f))|by apply IV
        |by apply (list_decides _ _ _ SV)].
    + constructor. by apply I.
  - intros H. destruct H as [id doc i d H1 H2|f id doc i t ts H0 H1 H2|s1 s2 ids docs is ds H1 H2
      |f s1 s2 ids docs is vs ts tss H0 H1 H2 H3|an id i H1]; cbn [dyn_call].
    + rewrite (proj2 (proj1 I id i) H1), (proj2 (proj1 S doc d) H2). done.
    + rewrite H0. cbn [mbind outcome_bind]. rewrite (proj2 (proj1 I id i) H1).
      cbn [mbind outcome_bind]. rewrite (proj2 (proj1 SV t ts) H2). done.
    + rewrite (proj2 (proj1 IV ids is) H1). cbn [mbind outcome_bind]. rewrite (proj2 (proj1 SV docs ds) H2). done.
    + rewrite (proj2 (iter_ret docs vs) H0). cbn [mbind outcome_bind].
      rewrite (proj2 (mapM_ret _ _ _ _ _ (call_decides f)) H1). cbn [mbind outcome_bind].
      rewrite (proj2 (proj1 IV ids is) H2). cbn [mbind outcome_bind].
      rewrite (proj2 (proj1 (list_decides _ _ _ SV) ts tss) H3). done.
    + rewrite (proj2 (proj1 I id i) H1). done.
Qed.

Lemma dyn_call_raise an o e : dyn_call an o = Raise e <-> rejected an o e.
Proof.
  split.
  - intros H. destruct o as [id doc|s1 s2 ids docs|id]; [destruct an as [|f]..|]; cbn [dyn_call] in H.
    + apply bind_raise in H as [H|(i & H1 & H)]; [constructor; by apply I|].
      apply bind_raise in H as [H|(d & _ & [=])]. eapply rej_doc; [by apply I|by apply S].
    + apply bind_raise in H as [H|(t & H0 & H)]; [by constructor|].
      apply bind_raise in H as [H|(i & H1 & H)]; [eapply rej_callable_id; [done|by apply I]|].
      apply bind_raise in H as [H|(d & _ & [=])]. eapply rej_tokens; [done|by apply I|by apply SV].
    + apply bind_raise in H as [H|(i & H1 & H)]; [constructor; by apply IV|].
      apply bind_raise in H as [H|(d & _ & [=])]. eapply rej_docs; [by apply IV|by apply SV].
    + apply bind_raise in H as [H|(vs & H0 & H)].
      { apply iter_raise in H as [H ->]. by constructor. }
      apply iter_ret in H0.
      apply bind_raise in H as [H|(ts & H1 & H)].
      { eapply rej_some_callable; [done|]. by apply (mapM_raise _ _ _ _ _ (call_decides f)). }
      apply (mapM_ret _ _ _ _ _ (call_decides f)) in H1.
      apply bind_raise in H as [H|(is & H2 & H)]; [eapply rej_callable_ids; [done..|by apply IV]|].
      apply bind_raise in H as [H|(tss & _ & [=])].
      eapply rej_some_tokens; [done..|by apply IV|]. by apply (list_decides _ _ _ SV).
    + apply bind_raise in H as [H|(i & _ & [=])]. constructor. by apply I.
  - intros H.
    destruct H as [id doc e H1|id doc i e H1 H2|f id doc e H1|f id doc t e H0 H1|f id doc t i e H0 H1 H2
      |s1 s2 ids docs e H1|s1 s2 ids docs is e H1 H2|f s1 s2 ids docs H1|f s1 s2 ids docs vs e H0 H1
      |f s1 s2 ids docs vs ts e H0 H1 H2|f s1 s2 ids docs is vs ts e H0 H1 H2 H3|an id e H1]; cbn [dyn_call].
    + rewrite (proj2 (proj2 I id e) H1). done.
    + rewrite (proj2 (proj1 I id i) H1). cbn [mbind outcome_bind]. rewrite (proj2 (proj2 S doc e) H2). done.
    + rewrite H1. done.
    + rewrite H0. cbn [mbind outcome_bind]. rewrite (proj2 (proj2 I id e) H1). done.
    + rewrite H0. cbn [mbind outcome_bind]. rewrite (proj2 (proj1 I id i) H1). cbn [mbind outcome_bind].
      rewrite (proj2 (proj2 SV t e) H2). done.
    + rewrite (proj2 (proj2 IV ids e) H1). done.
    + rewrite (proj2 (proj1 IV ids is) H1). cbn [mbind outcome_bind]. rewrite (proj2 (proj2 SV docs e) H2). done.
    + rewrite (proj2 (iter_raise docs ETypeError) (conj H1 eq_refl)). done.
    + rewrite (proj2 (iter_ret docs vs) H0). cbn [mbind outcome_bind].
      rewrite (proj2 (mapM_raise _ _ _ _ _ (call_decides f)) H1). done.
    + rewrite (proj2 (iter_ret docs vs) H0). cbn [mbind outcome_bind].
      rewrite (proj2 (mapM_ret _ _ _ _ _ (call_decides f)) H1). cbn [mbind outcome_bind].
      rewrite (proj2 (proj2 IV ids e) H2). done.
    + rewrite (proj2 (iter_ret docs vs) H0). cbn [mbind outcome_bind].
      rewrite (proj2 (mapM_ret _ _ _ _ _ (call_decides f)) H1). cbn [mbind outcome_bind].
      rewrite (proj2 (proj1 IV ids is) H2). cbn [mbind outcome_bind].
      rewrite (proj2 (proj2 (list_decides _ _ _ SV) ts e) H3). done.
    + rewrite (proj2 (proj2 I id e) H1). done.
Qed.

(** ** Calls of the declared types *)
Lemma typed_accepted an an' o c : agrees an an' -> call_is o c -> accepted an' o (class_call an c).
Proof.
  intros Ha [id doc i d H1 [-> H2]|s1 s2 ids docs is ds H1 H2|id i H1].
  - destruct an as [s|g], an' as [|f]; try done; cbn [class_call].
    + by constructor.
    + destruct (Ha d H2) as (v & Hv & Hs). by econstructor.
  - destruct an as [s|g], an' as [|f]; try done; cbn [class_call].
    + by constructor.
    + destruct H2 as (vs & Hvs & H2). cbn [agrees] in Ha.
      assert (H : exists ts, Forall2 (returns f) vs ts /\ Forall2 (seq_is doc_is) ts (g <$> ds)).
      { clear Hvs. induction H2 as [|v d vs ds [-> Hd] _ (ts & IH1 & IH2)]; [exists []; split; constructor|].
        destruct (Ha d Hd) as (t & Ht & Hs). exists (t :: ts). split; by constructor. }
      destruct H as (ts & Ht1 & Ht2). econstructor; [by left|done..].
  - by constructor.
Qed.

Section Step.
Context (lower : text -> text)
        (shingles_str : list N -> nat -> option (list (list N)))
        (shingles_words : list (list N) -> nat -> option (list (list (list N)))).
Context (hash : token -> N) (bh : list N -> N).
Notation dstep := (dyn_step lower shingles_str shingles_words hash bh).
Notation drun := (dyn_run lower shingles_str shingles_words hash bh).
Notation cstep := (class_step lower shingles_str shingles_words hash bh).
Notation crun := (class_run lower shingles_str shingles_words hash bh).

Lemma step_accepted m o c : accepted (d_analyzer m) o c ->
  dstep m o =
    (let r := py_step lower shingles_str shingles_words hash bh (d_container m) (d_hash m) (d_native m) c in
     (DynIndex (d_container m) (d_hash m) r.1 (d_analyzer m), if r.2 then Some EPanic else None)).
Proof. intros H. apply dyn_call_ret in H. unfold dyn_step. by rewrite H. Qed.
Lemma step_rejected m o e : rejected (d_analyzer m) o e -> dstep m o = (m, Some e).
Proof. intros H. apply dyn_call_raise in H. unfold dyn_step. by rewrite H. Qed.

Lemma step_unchanged m o e : (dstep m o).2 = Some e -> e <> EPanic -> (dstep m o).1 = m.
Proof.
  unfold dyn_step. destruct (dyn_call (d_analyzer m) o) as [c|e']; [|done]. cbn [fst snd].
  destruct (py_step _ _ _ _ _ _ _ _ _).2; congruence.
Qed.

Lemma step_typed m m' o c : object_is m m' -> call_is o c ->
  object_is (cstep m c).1 (dstep m' o).1 /\
  (dstep m' o).2 = (if (cstep m c).2 then Some EPanic else None).
Proof.
  intros (ck & hk & n & an & an' & -> & -> & Ha) Hc.
  rewrite (step_accepted (DynIndex ck hk n an') o (class_call an c)) by (by apply typed_accepted).
  unfold class_step. cbn [c_container c_hash c_native c_analyzer d_container d_hash d_native d_analyzer fst snd].
  split; [|done]. eexists ck, hk, _, an, an'. done.
Qed.

Lemma run_mixed an' m m' ops cs : object_is m m' -> d_analyzer m' = an' -> mixed an' ops cs ->
  object_is (crun m cs) (drun m' ops).
Proof.
  intros Ho Ha H. revert m m' Ho Ha. induction H as [|o c ops cs Hc _ IH|o e ops cs Hr _ IH]; intros m m' Ho Ha.
  - done.
  - cbn [class_run dyn_run fold_left]. apply IH; [by apply step_typed|].
    rewrite <- Ha. destruct Ho as (ck & hk & n & an & an1 & -> & -> & Hag).
    rewrite (step_accepted (DynIndex ck hk n an1) o (class_call an c)) by (by apply typed_accepted). done.
  - cbn [dyn_run fold_left]. rewrite (step_rejected m' o e) by (by rewrite Ha). by apply IH.
Qed.

Lemma run_calls m ops : exists cs, calls (d_analyzer m) ops cs /\
  drun m ops = DynIndex (d_container m) (d_hash m)
    (py_run lower shingles_str shingles_words hash bh (d_container m) (d_hash m) (d_native m) cs) (d_analyzer m).
Proof.
  revert m. induction ops as [|o ops IH]; intros m.
  - exists []. split; [constructor|]. by destruct m.
  - cbn [dyn_run fold_left].
    destruct (dyn_call (d_analyzer m) o) as [c|e] eqn:E.
    + apply dyn_call_ret in E. rewrite (step_accepted _ _ _ E). cbn [fst].
      destruct (IH (DynIndex (d_container m) (d_hash m)
        (py_step lower shingles_str shingles_words hash bh (d_container m) (d_hash m) (d_native m) c).1 (d_analyzer m)))
        as (cs & H1 & H2).
      exists (c :: cs). split; [by econstructor|exact H2].
    + apply dyn_call_raise in E. rewrite (step_rejected _ _ _ E). cbn [fst].
      destruct (IH m) as (cs & H1 & H2). exists cs. split; [by econstructor|exact H2].
Qed.

Lemma named_mixed ops : exists cs, mixed DNamed ops cs.
Proof.
  induction ops as [|o ops [cs IH]]; [exists []; constructor|].
  destruct (dyn_call DNamed o) as [c|e] eqn:E.
  - apply dyn_call_ret in E. inversion E; subst; eexists; eapply mixed_call; try done; by constructor.
  - apply dyn_call_raise in E. exists cs. by econstructor.
Qed.

Context (order : gset Z -> list Z) (sort : list (Z * f64) -> list (Z * f64)).

Lemma query_typed m m' v d : object_is m m' -> doc_is v d ->
  dyn_query lower shingles_str shingles_words hash bh order m' v =
    of_res (class_query lower shingles_str shingles_words hash bh order m d) /\
  dyn_query_return_similarity lower shingles_str shingles_words hash bh order sort m' v =
    of_res (class_query_return_similarity lower shingles_str shingles_words hash bh order sort m d).
Proof.
  intros (ck & hk & n & an & an' & -> & -> & Ha) [-> Hd].
  unfold dyn_query, dyn_query_return_similarity, class_query, class_query_return_similarity.
  cbn [c_container c_hash c_native c_analyzer d_container d_hash d_native d_analyzer].
  destruct an as [s|g], an' as [|f]; try done.
  - rewrite (proj2 (proj1 S (VStr d) d)) by done. done.
  - destruct (Ha d Hd) as (t & Ht & Hs). rewrite Ht. cbn [mbind outcome_bind].
    rewrite (proj2 (proj1 SV t (g d)) Hs). done.
Qed.

Lemma bulk_typed m m' s1 s2 v ds : object_is m m' -> seq_is doc_is v ds ->
  dyn_par_bulk_query lower shingles_str shingles_words hash bh order s1 s2 m' v =
    of_res (class_par_bulk_query lower shingles_str shingles_words hash bh order s1 s2 m ds) /\
  dyn_par_bulk_query_return_similarity lower shingles_str shingles_words hash bh order sort s1 s2 m' v =
    of_res (class_par_bulk_query_return_similarity lower shingles_str shingles_words hash bh order sort s1 s2 m ds).
Proof.
  intros (ck & hk & n & an & an' & -> & -> & Ha) Hv.
  unfold dyn_par_bulk_query, dyn_par_bulk_query_return_similarity, class_par_bulk_query,
    class_par_bulk_query_return_similarity.
  cbn [c_container c_hash c_native c_analyzer d_container d_hash d_native d_analyzer].
  destruct an as [s|g], an' as [|f]; try done.
  - rewrite (proj2 (proj1 SV v ds) Hv). done.
  - assert (Hc : accepted (DCallable f) (DParBulkInsertDocs [] [] (VList []) v)
      (class_call (Callable g) (CParBulkInsertDocs [] [] [] ds))).
    { apply typed_accepted; [done|]. constructor; [|done]. exists []. split; [by left|constructor]. }
    cbn [class_call] in Hc. inversion Hc as [| | |? ? ? ? ? ? vs ts tss H0 H1 H2 H3|]; subst.
    rewrite (proj2 (iter_ret v vs) H0). cbn [mbind outcome_bind].
    rewrite (proj2 (mapM_ret _ _ _ _ _ (call_decides f)) H1). cbn [mbind outcome_bind].
    rewrite (proj2 (proj1 (list_decides _ _ _ SV) ts (g <$> ds)) H3). done.
Qed.
End Step.

(** ** The constructor *)
Definition raises_ok {A} (x : outcome A) : Prop := exists e, x = Raise e /\ e <> EPanic /\ forall n, e <> EUser n.

Definition total {A B} (conv : A -> outcome B) (good : A -> B -> Prop) : Prop :=
  forall a, (exists b, conv a = Ret b /\ good a b /\ forall b', good a b' -> b' = b) \/
            (raises_ok (conv a) /\ forall b, ~ good a b).

Lemma total_bind {A B} (x : outcome A) (f : A -> outcome B) : raises_ok x -> raises_ok (x ≫= f).
Proof. intros (e & -> & H). by exists e. Qed.

Lemma raise_known {A} e : e = ETypeError \/ e = EValueError \/ e = EOverflowError \/ e = EUnicodeEncodeError ->
  raises_ok (@Raise A e).
Proof. intros H. exists e. split; [done|]. by destruct H as [->|[->|[->| ->]]]. Qed.

Lemma whole_inj v a b : whole v a -> whole v b -> a = b.
Proof. intros H1 H2. destruct H1; by inversion H2. Qed.

Lemma usize_total : total to_usize count_is.
Proof.
  intros v. unfold to_usize. destruct (to_int 0 (2 ^ 64) v) as [z|e] eqn:E.
  - apply to_int_ret in E as [Hw Hr]. left. exists (Z.to_nat z). split; [done|].
    assert (Ez : Z.of_nat (Z.to_nat z) = z) by lia. split; [split; rewrite Ez; [done|lia]|].
    intros b [Hb _]. pose proof (whole_inj _ _ _ Hw Hb). lia.
  - right. split.
    + apply raise_known. apply to_int_raise in E as [(z & _ & _ & ->)|[_ ->]]; auto.
    + intros n [Hw Hr]. apply to_int_raise in E as [(z & Hz & Hn & _)|[Hn _]].
      * pose proof (whole_inj _ _ _ Hw Hz). lia.
      * eauto.
Qed.
Lemma str_total : total to_str doc_is.
Proof.
  intros v. destruct (to_str v) as [t|e] eqn:E.
  - apply S in E. left. exists t. split; [done|]. split; [done|]. destruct E as [-> _]. by intros b [[= ->] _].
  - right. split.
    + apply raise_known. apply S in E as [(t & _ & _ & ->)|[_ ->]]; auto.
    + intros t H. apply S in H. congruence.
Qed.
Lemma bool_total : total to_bool bool_is.
Proof.
  intros v. destruct v; cbn [to_bool]; try (right; split; [apply raise_known; auto|]; intros ? H; inversion H; fail).
  left. eexists. split; [done|]. split; [constructor|]. intros b' H. by inversion H.
Qed.
Lemma pair_total : total to_pair pair_is.
Proof.
  intros v. destruct v as [| | | | | |l| |]; cbn [to_pair];
    try (right; split; [apply raise_known; auto|]; intros ? H; inversion H; fail).
  destruct l as [|a [|b [|c l]]]; try (right; split; [apply raise_known; auto|]; intros ? H; inversion H; fail).
  destruct (usize_total a) as [(x & -> & Hx & Ux)|[Hr Hn]]; cbn [mbind outcome_bind].
  - destruct (usize_total b) as [(y & -> & Hy & Uy)|[Hr Hn]]; cbn [mbind outcome_bind].
    + left. eexists. split; [done|]. split; [by constructor|]. intros p H. inversion H; subst.
      f_equal; [by apply Ux|by apply Uy].
    + right. split; [by apply total_bind|]. intros p H. inversion H; subst. by eapply Hn.
  - right. split; [by apply total_bind|]. intros p H. inversion H; subst. by eapply Hn.
Qed.
Lemma option_total {A} (conv : pyval -> outcome A) good : total conv good -> total (to_option conv) (opt_is good).
Proof.
  intros Ht v. unfold to_option.
  assert (Hv : v = VNone \/ v <> VNone) by (destruct v; [by left|by right..]).
  destruct Hv as [->|Hv].
  - left. exists None. split; [done|]. split; [constructor|]. intros b H. inversion H; [done|]. congruence.
  - assert (E : match v with VNone => Ret None | _ => a ← conv v; Ret (Some a) end = (a ← conv v; Ret (Some a)))
      by (by destruct v).
    rewrite E. destruct (Ht v) as [(b & -> & Hb & Ub)|[Hr Hn]].
    + left. exists (Some b). split; [done|]. split; [by constructor|]. intros b' H. inversion H; subst; [done|].
      f_equal. by apply Ub.
    + right. split; [by apply total_bind|]. intros b H. inversion H; subst; [done|]. by eapply Hn.
Qed.
Lemma container_total : total dyn_container container_is.
Proof.
  intros v. destruct v as [| | | |cs| | | |]; cbn [dyn_container];
    try (right; split; [apply raise_known; auto|]; intros ? H; inversion H; fail).
  change (literal "set") with [115; 101; 116]%N. change (literal "vec") with [118; 101; 99]%N.
  change (literal "smallvec") with [115; 109; 97; 108; 108; 118; 101; 99]%N.
  case_bool_decide as E1; [|case_bool_decide as E2; [|case_bool_decide as E3]].
  1-3: left; eexists; split; [done|]; subst cs; split; [constructor|]; intros b H; by inversion H.
  right. split; [apply raise_known; auto|]. intros b H. inversion H; congruence.
Qed.
Lemma name_total : total (fun an => n ← dyn_name an; Ret (n, match an with ACallable f => DCallable f | AObject _ => DNamed end))
  (fun an p => analyzer_is an p.1 p.2).
Proof.
  intros an. destruct an as [f|v]; cbn [dyn_name].
  - left. eexists. split; [done|]. split; [constructor|]. intros [n a] H. cbn [fst snd] in H. by inversion H.
  - assert (Ht : total (fun v => t ← to_str v; Ret (analyzer_name t)) name_is).
    { clear v. intros v. destruct (str_total v) as [(t & -> & [-> Ht] & Ut)|[Hr Hn]].
      - left. exists (analyzer_name t). split; [done|]. unfold analyzer_name.
        change (literal "char") with [99; 104; 97; 114]%N.
        case_bool_decide as E.
        + subst t. split; [constructor|]. intros b H. by inversion H.
        + split; [by constructor|]. intros b H. by inversion H; subst.
      - right. split; [by apply total_bind|]. intros b H. inversion H; subst; eapply Hn; split; try done.
        repeat constructor; unfold plain; lia. }
    pose proof (option_total _ _ Ht v) as Ho.
    assert (E : to_option (fun v => t ← to_str v; Ret (analyzer_name t)) v =
                (n ← to_option to_str v; Ret (option_map analyzer_name n))).
    { destruct v as [| | | |cs| | | |]; try done. cbn [to_option to_str]. by destruct (existsb _ _). }
    rewrite E in Ho. destruct Ho as [(b & -> & Hb & Ub)|[Hr Hn]].
    + left. exists (b, DNamed). split; [done|]. split; [by constructor|].
      intros [n a] H. cbn [fst snd] in H. inversion H; subst. f_equal. by apply Ub.
    + right. split; [by apply total_bind|]. intros [n a] H. cbn [fst snd] in H. inversion H; subst. by eapply Hn.
Qed.
Lemma equals_equal v n : v <> VBool true -> v <> VBool false -> equals_int v n = true <-> equal_to v n.
Proof.
  intros H1 H2. destruct v as [|[]| | | | | | |]; cbn [equals_int]; try done;
    try (split; [done|]; intros H; inversion H; fail).
  - rewrite Z.eqb_eq. split; [intros ->; constructor|]. intros H. by inversion H.
  - split; [by constructor|]. intros H. by inversion H.
Qed.

Lemma float_equal s m e x : SFeqb x (S754_finite s m e) = true -> x = S754_finite s m e.
Proof.
  unfold SFeqb. destruct x as [s'|s'| |s' m' e']; cbn [SFcompare]; try (by destruct s); try (by destruct s').
  destruct s', s; try done.
  - destruct (Z.compare_spec e' e) as [->|?|?]; try done.
    destruct (Pos.compare_cont Eq m' m) eqn:E; try done. intros _.
    change (Pos.compare_cont Eq m' m) with (m' ?= m)%positive in E. by apply Pos.compare_eq in E as ->.
  - destruct (Z.compare_spec e' e) as [->|?|?]; try done.
    destruct (Pos.compare_cont Eq m' m) eqn:E; try done. intros _.
    change (Pos.compare_cont Eq m' m) with (m' ?= m)%positive in E. by apply Pos.compare_eq in E as ->.
Qed.
Lemma equal_inj v a b : a ∈ [8; 16; 32; 64]%N -> b ∈ [8; 16; 32; 64]%N -> equal_to v a -> equal_to v b -> a = b.
Proof.
  intros Ha Hb H1. destruct H1 as [n|x n Hx]; intros H2; inversion H2 as [n' E|y n' Hy]; subst; [lia|].
  assert (Hfin : forall n, n ∈ [8; 16; 32; 64]%N -> exists e, f64_of_N n = S754_finite false 4503599627370496 e /\
    e = (if (n =? 8)%N then -49 else if (n =? 16)%N then -48 else if (n =? 32)%N then -47 else -46)%Z).
  { intros k Hk. repeat (apply elem_of_cons in Hk as [->|Hk]); [..|by apply elem_of_nil in Hk];
      eexists; (split; [vm_compute; reflexivity|reflexivity]). }
  destruct (Hfin n Ha) as (e1 & E1 & D1). destruct (Hfin b Hb) as (e2 & E2 & D2).
  rewrite E1 in Hx. rewrite E2 in Hy. apply float_equal in Hx, Hy. rewrite Hx in Hy. injection Hy as Hy.
  clear - Ha Hb D1 D2 Hy. rewrite D1, D2 in Hy. clear D1 D2.
  repeat (apply elem_of_cons in Ha as [->|Ha]); [..|by apply elem_of_nil in Ha];
  (repeat (apply elem_of_cons in Hb as [->|Hb]); [..|by apply elem_of_nil in Hb]); cbn in Hy; congruence.
Qed.
Lemma hash_total : total dyn_hash_size hash_is.
Proof.
  intros v. assert (Hv : (v = VBool true \/ v = VBool false) \/ ~ (v = VBool true \/ v = VBool false)).
  { destruct v as [|[]| | | | | | |]; auto; right; by intros [?|?]. }
  destruct Hv as [Hv|Hv].
  { right. split.
    - destruct Hv as [-> | ->]; apply raise_known; auto.
    - intros b H. destruct Hv as [-> | ->]; inversion H as [? E|? E|? E|? E]; inversion E. }
  assert (Heq : forall n, equals_int v n = true <-> equal_to v n).
  { intros n. apply equals_equal; intros ->; apply Hv; auto. }
  assert (Hu : forall a b, a ∈ [8; 16; 32; 64]%N -> b ∈ [8; 16; 32; 64]%N -> equal_to v a -> equal_to v b -> a = b)
    by (intros a b; apply equal_inj).
  assert (M8 : 8%N ∈ [8; 16; 32; 64]%N) by set_solver. assert (M16 : 16%N ∈ [8; 16; 32; 64]%N) by set_solver.
  assert (M32 : 32%N ∈ [8; 16; 32; 64]%N) by set_solver. assert (M64 : 64%N ∈ [8; 16; 32; 64]%N) by set_solver.
  assert (Hone : forall a hk, hash_is v hk -> equal_to v a -> a ∈ [8; 16; 32; 64]%N ->
    hk = (if (a =? 8)%N then MinHasher8 else if (a =? 16)%N then MinHasher16 else if (a =? 32)%N then MinHasher32 else MinHasher64V1)).
  { intros a hk H Ha Hm. destruct H as [v H|v H|v H|v H];
      [rewrite <- (Hu _ _ M8 Hm H Ha)|rewrite <- (Hu _ _ M16 Hm H Ha)|rewrite <- (Hu _ _ M32 Hm H Ha)
      |rewrite <- (Hu _ _ M64 Hm H Ha)]; done. }
  unfold dyn_hash_size.
  destruct (equals_int v 8) eqn:E8.
  { apply Heq in E8. left. exists MinHasher8. split; [done|]. split; [by constructor|]. intros hk H.
    exact (Hone 8%N hk H E8 M8). }
  destruct (equals_int v 16) eqn:E16.
  { apply Heq in E16. left. exists MinHasher16. split; [done|]. split; [by constructor|]. intros hk H.
    exact (Hone 16%N hk H E16 M16). }
  destruct (equals_int v 32) eqn:E32.
  { apply Heq in E32. left. exists MinHasher32. split; [done|]. split; [by constructor|]. intros hk H.
    exact (Hone 32%N hk H E32 M32). }
  destruct (equals_int v 64) eqn:E64.
  { apply Heq in E64. left. exists MinHasher64V1. split; [done|]. split; [by constructor|]. intros hk H.
    exact (Hone 64%N hk H E64 M64). }
  right. split; [apply raise_known; auto|]. intros hk H. destruct H as [v H|v H|v H|v H]; apply Heq in H; congruence.
Qed.
Lemma threshold_total : total dyn_threshold threshold_is.
Proof.
  intros v. destruct v as [|b|z|x| | | | |]; cbn [dyn_threshold];
    try (right; split; [apply raise_known; auto|]; intros ? H; inversion H as [|? Hw|? Hw]; inversion Hw; fail).
  - left. destruct b; (eexists; split; [done|]; split;
      [first [apply th_zero; constructor|apply th_one; constructor]
      |intros y H; inversion H as [|? Hw|? Hw]; subst; [inversion Hw; reflexivity..]]).
  - destruct (Z.ltb_spec z 0); cbn [orb]; [|destruct (Z.ltb_spec 1 z); cbn [orb]].
    1-2: right; split; [apply raise_known; auto|]; intros y H'; inversion H' as [|? Hw|? Hw]; inversion Hw; lia.
    assert (Hz : z = 0%Z \/ z = 1%Z) by lia. left. destruct Hz as [-> | ->].
    + exists (f64_of_N 0). split; [done|]. split; [apply th_zero; constructor|].
      intros y H'; inversion H' as [|? Hw|? Hw]; subst; [done|inversion Hw].
    + exists (f64_of_N 1). split; [done|]. split; [apply th_one; constructor|].
      intros y H'; inversion H' as [|? Hw|? Hw]; subst; [inversion Hw|done].
  - change f64_one with (f64_of_N 1). destruct (f64_lt x (f64_of_N 0)) eqn:E0; cbn [orb].
    { right. split; [apply raise_known; auto|]. intros y H. inversion H as [? H0|? Hw|? Hw]; subst; [congruence|inversion Hw..]. }
    destruct (f64_gt x (f64_of_N 1)) eqn:E1.
    { right. split; [apply raise_known; auto|]. intros y H. inversion H as [? H0|? Hw|? Hw]; subst; [congruence|inversion Hw..]. }
    left. exists x. split; [done|]. split; [by constructor|]. intros y H. inversion H as [|? Hw|? Hw]; subst; [done|inversion Hw..].
Qed.

Lemma total_good {A B} (conv : A -> outcome B) good a b : total conv good -> good a b -> conv a = Ret b.
Proof. intros Ht Hg. destruct (Ht a) as [(b' & -> & _ & Hu)|[_ Hn]]; [by rewrite (Hu b Hg)|by apply Hn in Hg]. Qed.

Section New.
Context (powf : f64 -> f64 -> f64) (draws : N -> nat -> nat -> N).
Notation count_total := (option_total _ _ usize_total).

Definition new_of ck hk x nb bw nh name lc r an' : outcome (option dyn_index) :=
  match py_new powf draws ck x nb bw nh name lc r with
  | Made m => Ret (Some (DynIndex ck hk m an'))
  | ValueError => Raise EValueError
  | Diverges => Ret None
  end.

Lemma new_good vhs vth vnb vbw vnh an vlc vr vc hk x ck nb bw nh name an' lc r :
  hash_is vhs hk -> threshold_is vth x -> container_is vc ck ->
  opt_is count_is vnb nb -> opt_is count_is vbw bw -> opt_is count_is vnh nh ->
  analyzer_is an name an' -> opt_is bool_is vlc lc -> opt_is pair_is vr r ->
  dyn_new powf draws vhs vth vnb vbw vnh an vlc vr vc = new_of ck hk x nb bw nh name lc r an'.
Proof.
  intros H1 H2 H3 H4 H5 H6 H7 H8 H9. unfold dyn_new.
  rewrite (total_good _ _ _ _ hash_total H1). cbn [mbind outcome_bind].
  rewrite (total_good _ _ _ _ threshold_total H2). cbn [mbind outcome_bind].
  rewrite (total_good _ _ _ _ container_total H3). cbn [mbind outcome_bind].
  rewrite (total_good _ _ _ _ count_total H4). cbn [mbind outcome_bind].
  rewrite (total_good _ _ _ _ count_total H5). cbn [mbind outcome_bind].
  rewrite (total_good _ _ _ _ count_total H6). cbn [mbind outcome_bind].
  pose proof (total_good _ _ an (name, an') name_total H7) as En. cbn beta in En.
  apply bind_ret in En as (n & -> & [= -> <-]). cbn [mbind outcome_bind].
  rewrite (total_good _ _ _ _ (option_total _ _ bool_total) H8). cbn [mbind outcome_bind].
  rewrite (total_good _ _ _ _ (option_total _ _ pair_total) H9). done.
Qed.

Lemma new_bad vhs vth vnb vbw vnh an vlc vr vc :
  (~ exists hk x ck nb bw nh name an' lc r,
    hash_is vhs hk /\ threshold_is vth x /\ container_is vc ck /\
    opt_is count_is vnb nb /\ opt_is count_is vbw bw /\ opt_is count_is vnh nh /\
    analyzer_is an name an' /\ opt_is bool_is vlc lc /\ opt_is pair_is vr r) ->
  raises_ok (dyn_new powf draws vhs vth vnb vbw vnh an vlc vr vc).
Proof.
  intros Hno. unfold dyn_new.
  destruct (hash_total vhs) as [(hk & -> & G1 & _)|[Hr _]]; [|by apply total_bind]. cbn [mbind outcome_bind].
  destruct (threshold_total vth) as [(x & -> & G2 & _)|[Hr _]]; [|by apply total_bind]. cbn [mbind outcome_bind].
  destruct (container_total vc) as [(ck & -> & G3 & _)|[Hr _]]; [|by apply total_bind]. cbn [mbind outcome_bind].
  destruct (count_total vnb) as [(nb & -> & G4 & _)|[Hr _]]; [|by apply total_bind]. cbn [mbind outcome_bind].
  destruct (count_total vbw) as [(bw & -> & G5 & _)|[Hr _]]; [|by apply total_bind]. cbn [mbind outcome_bind].
  destruct (count_total vnh) as [(nh & -> & G6 & _)|[Hr _]]; [|by apply total_bind]. cbn [mbind outcome_bind].
  destruct (name_total an) as [([n an'] & En & G7 & _)|[(e & Er & He) _]].
  2:{ apply bind_raise in Er as [->|(? & _ & [=])]. by exists e. }
  apply bind_ret in En as (n' & -> & _). cbn [mbind outcome_bind].
  destruct (option_total _ _ bool_total vlc) as [(lc & -> & G8 & _)|[Hr _]]; [|by apply total_bind]. cbn [mbind outcome_bind].
  destruct (option_total _ _ pair_total vr) as [(r & -> & G9 & _)|[Hr _]]; [|by apply total_bind].
  exfalso. apply Hno. exists hk, x, ck, nb, bw, nh, n, an', lc, r. done.
Qed.

Lemma literal_inj s s' : literal s = literal s' -> s = s'.
Proof.
  unfold literal. intros H. rewrite <- (string_of_list_ascii_of_string s), <- (string_of_list_ascii_of_string s').
  f_equal. revert H. generalize (list_ascii_of_string s), (list_ascii_of_string s').
  intros l. induction l as [|a l IH]; intros [|b l'] H; try done. injection H as H1 H2. f_equal; [|by apply IH].
  rewrite <- (ascii_N_embedding a), <- (ascii_N_embedding b). by rewrite H1.
Qed.
Lemma literal_plain s : Forall plain (literal s).
Proof.
  unfold literal. apply Forall_fmap, Forall_forall. intros a _. unfold compose, plain.
  pose proof (N_ascii_bounded a). lia.
Qed.
Lemma py_new_name ck x nb bw nh s lc r :
  py_new powf draws ck x nb bw nh (Some (analyzer_name (literal s))) lc r =
  py_new powf draws ck x nb bw nh (Some s) lc r.
Proof.
  assert (E : forall nb bw, py_make draws ck x nb bw (Some (analyzer_name (literal s))) lc r =
                            py_make draws ck x nb bw (Some s) lc r).
  { intros nb' bw'. unfold py_make. cbn [from_option id].
    assert (E : tokenizer_new (analyzer_name (literal s)) r = tokenizer_new s r); [|by rewrite E]. unfold analyzer_name.
    destruct (decide (s = "char"%string)) as [->|Hs]; [by rewrite bool_decide_eq_true_2|].
    rewrite bool_decide_eq_false_2 by (intros H; by apply literal_inj in H).
    unfold tokenizer_new. apply String.eqb_neq in Hs. rewrite Hs. done. }
  unfold py_new. destruct nb, bw; try (by rewrite E).
  all: destruct nh; [|done]; destruct (calculate_minhash_params _ _ _) as [[]|]; [|done]; by rewrite E.
Qed.

Lemma new_class z x vnb vbw vnh a vlc vr c nb bw nh an lc r :
  opt_is count_is vnb nb -> opt_is count_is vbw bw -> opt_is count_is vnh nh ->
  argument_is an a -> opt_is bool_is vlc lc -> opt_is pair_is vr r ->
  outcome_is (class_new powf draws z x nb bw nh an lc r c)
    (dyn_new powf draws (VInt z) (VFloat x) vnb vbw vnh a vlc vr (VStr (literal c))).
Proof.
  intros H4 H5 H6 H7 H8 H9. unfold class_new.
  case_bool_decide as Hz; cbn [negb].
  2:{ unfold dyn_new.
      assert (E : dyn_hash_size (VInt z) = Raise EValueError).
      { unfold dyn_hash_size, equals_int. repeat case_match; try done; exfalso; apply Hz;
          repeat match goal with H : (_ =? _)%Z = true |- _ => apply Z.eqb_eq in H end; subst z; set_solver. }
      rewrite E. done. }
  destruct (f64_lt x (f64_of_N 0) || f64_gt x f64_one) eqn:Hx.
  { unfold dyn_new. assert (E : exists hk, dyn_hash_size (VInt z) = Ret hk).
    { repeat (apply elem_of_cons in Hz as [->|Hz]); [..|by apply elem_of_nil in Hz]; eexists; reflexivity. }
    destruct E as [hk ->]. cbn [mbind outcome_bind dyn_threshold]. rewrite Hx. done. }
  assert (Hth : threshold_is (VFloat x) x) by (apply orb_false_iff in Hx as [? ?]; by constructor).
  assert (Hhk : exists hk, choose_hash z = Some hk /\ hash_is (VInt z) hk).
  { repeat (apply elem_of_cons in Hz as [->|Hz]); [..|by apply elem_of_nil in Hz]; eexists; split; try reflexivity;
      constructor; [exact (equal_int 8)|exact (equal_int 16)|exact (equal_int 32)|exact (equal_int 64)]. }
  destruct Hhk as (hk & -> & Hhk).
  case_bool_decide as Hc; cbn [negb].
  2:{ unfold dyn_new. rewrite (total_good _ _ _ _ hash_total Hhk). cbn [mbind outcome_bind].
      rewrite (total_good _ _ _ _ threshold_total Hth). cbn [mbind outcome_bind dyn_container].
      rewrite !bool_decide_eq_false_2; [done|..]; intros E; apply literal_inj in E; apply Hc; set_solver. }
  assert (Hck : exists ck, choose_container c = Some ck /\ container_is (VStr (literal c)) ck).
  { repeat (apply elem_of_cons in Hc as [->|Hc]); [..|by apply elem_of_nil in Hc]; eexists; split; try reflexivity; constructor. }
  destruct Hck as (ck & -> & Hck).
  assert (Han : exists name an', analyzer_is a name an' /\ agrees an an' /\
    py_new powf draws ck x nb bw nh name lc r =
    py_new powf draws ck x nb bw nh (Some (match an with Callable _ => "word"%string | Named s => s end)) lc r).
  { destruct an as [s|g], a as [f|v]; try done; cbn [argument_is] in H7.
    - subst v. exists (Some (analyzer_name (literal s))), DNamed. split; [|split; [done|apply py_new_name]].
      constructor. constructor; [done|]. unfold analyzer_name. change (literal "char") with [99; 104; 97; 114]%N.
      case_bool_decide as E; [rewrite E; constructor|constructor; [apply literal_plain|done]].
    - exists (Some "word"%string), (DCallable f). split; [constructor|]. done. }
  destruct Han as (name & an' & Ha & Hag & E).
  rewrite (new_good _ _ _ _ _ _ _ _ _ _ _ _ _ _ _ _ _ _ _ Hhk Hth Hck H4 H5 H6 Ha H8 H9).
  unfold new_of. rewrite E. clear E.
  destruct (py_new _ _ _ _ _ _ _ _ _ _) as [m| |]; [|exact eq_refl..].
  eexists ck, hk, _, an, an'. done.
Qed.
End New.
