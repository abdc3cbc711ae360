(** Scripts against the classes, decided from a table of signatures. *)
From stdpp Require Import base list gmap strings sorting.
From Coq Require Import NArith ZArith Lia.
From Verif Require Import Base Float Container MinHashIndex SpecIndex MinHasher Text StringIndex PyTokenizer PyMinHash SpecPy SpecPyClass SpecPyTest PyHash.
From Verif Require Import Fnv FastHash Rng RngDraws PropsScan PropsPy PropsPy2.
Local Open Scope nat_scope.

(** The token hash without division. *)
Definition fast_words (ws : list (list N)) : N :=
  foldl (fun h w => fast_write h (w ++ [255%N])) (fast_write fnv_default (le_bytes 8 (N.of_nat (length ws)))) ws.
Definition fast_token (t : token) : N := match t with TStr b => fast_str b | TWords ws => fast_words ws end.
Lemma fast_token_ok t : fast_token t = hash_token t.
Proof.
  destruct t as [b|ws]; [apply fast_str_ok|]. cbn [fast_token hash_token]. unfold fast_words, hash_words.
  rewrite fast_write_ok. generalize (fnv_write fnv_default (le_bytes 8 (N.of_nat (length ws)))).
  induction ws as [|w ws IH]; intros h; [done|]. cbn [foldl]. rewrite IH, fast_write_ok. f_equal.
  unfold fnv_write. by rewrite foldl_app.
Qed.

Global Instance token_eq_dec : EqDecision token.
Proof. solve_decision. Defined.

Global Instance spec_float_eq_dec : EqDecision spec_float.
Proof. solve_decision. Defined.

Section Table.
Context (hk : hasher_kind) (n : nat) (table : list (list token * list N)).
Definition table_ok : bool :=
  match std_hasher_new 9 hk n with
  | Some h => forallb (fun e => bool_decide (fast_signature fast_token hk h e.1 = Some e.2)) table
  | None => false
  end.
Lemma table_sig draws t s : table_ok = true -> std_hasher_new 9 hk n = Some (new_with_hasher draws n) ->
  (t, s) ∈ table -> sig_tokens hk hash_token draws n t = s.
Proof.
  unfold table_ok. intros Ht Hh. rewrite Hh, forallb_forall in Ht. intros Hin%elem_of_list_In.
  specialize (Ht _ Hin). apply bool_decide_eq_true_1 in Ht. cbn [fst snd] in Ht.
  rewrite (fast_signature_ext fast_token hash_token) in Ht by apply fast_token_ok.
  unfold sig_tokens. by rewrite Ht.
Qed.
Fixpoint assoc (l : list (list token * list N)) (t : list token) : option (list N) :=
  match l with [] => None | e :: l => if bool_decide (e.1 = t) then Some e.2 else assoc l t end.
Lemma assoc_elem l t s : assoc l t = Some s -> (t, s) ∈ l.
Proof.
  induction l as [|[t' s'] l IH]; [done|]. cbn [assoc fst snd]. case_bool_decide as E.
  - intros [= ->]. subst. left.
  - intros H. right. by apply IH.
Qed.

Context (nb bw : nat) (th : f64) (tk : text -> option (list token)).
Definition doc_sig (doc : text) : option (list N) := if ascii doc then tk doc ≫= assoc table else None.

(** All stored signatures that are similar enough share a band with the query and are listed. *)
Definition answers (c : gmap Z (list N)) (q : list N) (ans : list Z) : bool :=
  forallb (fun p : Z * list N =>
    if f64_ge (sim p.2 q) th then shares nb bw p.2 q && bool_decide (p.1 ∈ ans) else bool_decide (p.1 ∉ ans)) (map_to_list c) &&
  forallb (fun id => bool_decide (is_Some (c !! id))) ans.
Lemma answers_spec bh c q ans id : answers c q ans = true -> expected_answer nb bw bh th c q id <-> id ∈ ans.
Proof.
  unfold answers. rewrite andb_true_iff, !forallb_forall. intros [H1 H2].
  assert (H : forall id s, c !! id = Some s -> if f64_ge (sim s q) th then shares nb bw s q && bool_decide (id ∈ ans) = true else id ∉ ans).
  { intros id' s Hs. specialize (H1 (id', s)). rewrite <- elem_of_list_In, elem_of_map_to_list in H1. specialize (H1 Hs). cbn in H1.
    destruct (f64_ge (sim s q) th); [done|]. by apply bool_decide_eq_true_1 in H1. }
  unfold expected_answer. split.
  - intros (s & Hs & Hge & _). specialize (H id s Hs). rewrite Hge in H. apply andb_true_iff in H as [_ H]. by apply bool_decide_eq_true_1 in H.
  - intros Hin. specialize (H2 id (proj1 (elem_of_list_In _ _) Hin)). apply bool_decide_eq_true_1 in H2 as [s Hs].
    exists s. split; [done|]. specialize (H id s Hs). destruct (f64_ge (sim s q) th); [|done]. split; [done|].
    apply andb_true_iff in H as [H _]. unfold shares in H. apply existsb_exists in H as (i & Hi & Hb).
    apply in_seq in Hi. apply bool_decide_eq_true_1 in Hb. exists i. split; [lia|]. by rewrite Hb.
Qed.

Fixpoint check (c : gmap Z (list N)) (script : list line) : bool :=
  match script with
  | [] => true
  | Call (CInsertDocument id doc) :: script =>
      match doc_sig doc with Some s => bool_decide (c !! id = None) && check (<[id := s]> c) script | None => false end
  | Call (CRemove id) :: script => check (delete id c) script
  | Call _ :: _ => false
  | AssertQuery doc ans :: script =>
      (length ans <=? 1) && match doc_sig doc with Some q => answers c q ans | None => false end && check c script
  | AssertQuerySet doc ans :: script =>
      match doc_sig doc with Some q => answers c q ans | None => false end && check c script
  | AssertSize n :: script => bool_decide (size c = n) && check c script
  end.

Context (lower : text -> text)
        (shingles_str : list N -> nat -> option (list (list N)))
        (shingles_words : list (list N) -> nat -> option (list (list (list N)))).
Context (draws : N -> nat -> nat -> N) (bh : list N -> N) (ck : container_kind) (order : gset Z -> list Z).
Context (an : analyzer) (lc : option bool) (range : option (nat * nat)).
Notation name := (match an with Callable _ => "word"%string | Named s => s end).
Notation new := (ClassIndex ck hk (py_make draws ck th nb bw (Some name) lc range) an).
Notation native s := (doc_tokens lower shingles_str shingles_words (tokenizer_new s range) (default false lc)).
Notation toks := (class_tokens (fun s => native s) an).
Notation cstep := (class_step lower shingles_str shingles_words hash_token bh).
Notation crun := (class_run lower shingles_str shingles_words hash_token bh).
Notation sg := (sig_tokens hk hash_token draws (nb * bw)).
Context (Hn : n = nb * bw) (Ht : table_ok = true) (Hh : std_hasher_new 9 hk n = Some (new_with_hasher draws n)).
Context (Htk : forall doc, ascii doc = true -> toks doc = tk doc) (Ho : is_order order).

Lemma doc_sig_ok doc s : doc_sig doc = Some s -> exists t, toks doc = Some t /\ sg t = s.
Proof.
  unfold doc_sig. destruct (ascii doc) eqn:Ea; [|done]. rewrite (Htk doc Ea). destruct (tk doc) as [t|]; [|done].
  cbn [mbind option_bind]. intros Hs%assoc_elem. exists t. split; [done|]. rewrite <- Hn. by apply table_sig.
Qed.

Lemma fresh_app ops o : cfresh toks ops -> (cbatch_raises toks o = false -> fresh_put (ccontent toks ops) (casked toks o)) ->
  cfresh toks (ops ++ [o]).
Proof.
  unfold cfresh, ccontent. generalize (∅ : gmap Z (list token)). induction ops as [|o' ops IH]; intros c; [done|].
  cbn [app cfresh_from fold_left]. intros [H1 H2] Hp. split; [done|]. by apply IH.
Qed.
Lemma content_app ops o : ccontent toks (ops ++ [o]) = ccontent_step toks (ccontent toks ops) o.
Proof. unfold ccontent. by rewrite fold_left_app. Qed.

Lemma query_answers ops doc q ans : cfresh toks ops -> doc_sig doc = Some q -> answers (sg <$> ccontent toks ops) q ans = true ->
  exists l, class_query lower shingles_str shingles_words hash_token bh order (crun new ops) doc = Some l /\
    NoDup l /\ forall id, id ∈ l <-> id ∈ ans.
Proof.
  intros Hf Hq Ha. destruct (doc_sig_ok doc q Hq) as (t & Et & <-).
  destruct (C57_class_exact lower shingles_str shingles_words hash_token draws bh ck hk order nb bw th an lc range ops doc t Ho Hf Et)
    as (l & Hl & Hin).
  exists l. split; [exact Hl|]. split.
  - by destruct (C57_class_sound lower shingles_str shingles_words hash_token draws bh ck hk order nb bw th an lc range ops doc l Ho Hl).
  - intros id. rewrite Hin. by apply answers_spec.
Qed.

Lemma check_passes script ops : cfresh toks ops -> check (sg <$> ccontent toks ops) script = true ->
  passes lower shingles_str shingles_words hash_token bh order (crun new ops) script.
Proof.
  revert ops. induction script as [|[o|doc ans|doc ans|k] script IH]; intros ops Hf; cbn [check passes]; [done|..].
  - assert (Hrun : (cstep (crun new ops) o).1 = crun new (ops ++ [o])).
    { unfold class_run. by rewrite fold_left_app. }
    cbv zeta. rewrite Hrun.
    rewrite (C57_class_raises lower shingles_str shingles_words hash_token draws bh ck hk nb bw th an lc range ops o).
    destruct o as [id doc|s1 s2 ids docs|id]; [|done|].
    + destruct (doc_sig doc) as [s|] eqn:Es; [|done]. destruct (doc_sig_ok doc s Es) as (t & Et & <-).
      rewrite andb_true_iff. intros [Hc%bool_decide_eq_true_1 Hck]. rewrite lookup_fmap, fmap_None in Hc.
      split; [unfold craises, missing; cbn [casked cbatch_raises fmap list_fmap snd existsb]; by rewrite Et|].
      apply IH.
      * apply fresh_app; [done|]. intros _. cbn [casked fresh_put]. by rewrite Et.
      * rewrite content_app. cbn [ccontent_step cbatch_raises casked]. rewrite Et. cbn [put]. by rewrite fmap_insert.
    + intros Hck. split; [done|]. apply IH; [by apply fresh_app|]. rewrite content_app. cbn [ccontent_step]. by rewrite fmap_delete.
  - destruct (doc_sig doc) as [q|] eqn:Eq; [|by rewrite andb_false_r]. rewrite !andb_true_iff. intros [[Hlen%Nat.leb_le Ha] Hck].
    split; [|by apply IH]. destruct (query_answers ops doc q ans Hf Eq Ha) as (l & Hl & Hnd & Hin). rewrite Hl. f_equal.
    destruct ans as [|a [|a' ans]]; [| |cbn in Hlen; lia].
    + destruct l as [|x l]; [done|]. exfalso. specialize (Hin x). apply (not_elem_of_nil x), Hin. by left.
    + apply Permutation_singleton_r. apply NoDup_Permutation; [done|apply NoDup_singleton|done].
  - destruct (doc_sig doc) as [q|] eqn:Eq; [|done]. rewrite andb_true_iff. intros [Ha Hck].
    split; [|by apply IH]. destruct (query_answers ops doc q ans Hf Eq Ha) as (l & Hl & _ & Hin). by exists l.
  - rewrite andb_true_iff. intros [Hs%bool_decide_eq_true_1 Hck]. split; [|by apply IH].
    rewrite (C57_class_size lower shingles_str shingles_words hash_token draws bh ck hk nb bw th an lc range ops).
    by rewrite map_size_fmap in Hs.
Qed.

Lemma script_passes script : check ∅ script = true ->
  passes lower shingles_str shingles_words hash_token bh order new script.
Proof. intros H. apply (check_passes script []); [done|]. unfold ccontent. cbn [fold_left]. by rewrite fmap_empty. Qed.

(** Insertions one after another. *)
Fixpoint stored (c : gmap Z (list N)) (l : list (Z * text)) : option (gmap Z (list N)) :=
  match l with
  | [] => Some c
  | (id, doc) :: l => s ← doc_sig doc; if bool_decide (c !! id = None) then stored (<[id := s]> c) l else None
  end.
Lemma stored_ok l ops c : cfresh toks ops -> stored (sg <$> ccontent toks ops) l = Some c ->
  let ops' := ops ++ ((fun p => CInsertDocument p.1 p.2) <$> l) in
  cfresh toks ops' /\ sg <$> ccontent toks ops' = c.
Proof.
  revert ops. induction l as [|[id doc] l IH]; intros ops Hf; cbn [stored fmap list_fmap]; [rewrite app_nil_r; by intros [= ->]|].
  destruct (doc_sig doc) as [s|] eqn:Es; [|done]. destruct (doc_sig_ok doc s Es) as (t & Et & <-). cbn [mbind option_bind].
  case_bool_decide as Hc; [|done]. rewrite lookup_fmap, fmap_None in Hc. intros Hst.
  replace (ops ++ CInsertDocument (id, doc).1 (id, doc).2 :: ((fun p => CInsertDocument p.1 p.2) <$> l))
    with ((ops ++ [CInsertDocument id doc]) ++ ((fun p => CInsertDocument p.1 p.2) <$> l)) by (by rewrite <- app_assoc).
  apply IH.
  - apply fresh_app; [done|]. intros _. cbn [casked fresh_put]. by rewrite Et.
  - rewrite <- Hst. f_equal. rewrite content_app. cbn [ccontent_step cbatch_raises casked]. rewrite Et. cbn [put]. by rewrite fmap_insert.
Qed.

(** The answer with similarities, when they are all different. *)
Fixpoint descending (l : list (Z * f64)) : bool :=
  match l with
  | [] => true
  | x :: l => forallb (fun y => f64_ge x.2 y.2 && negb (f64_ge y.2 x.2)) l && descending l
  end.
Definition ranked (c : gmap Z (list N)) (q : list N) (ans : list (Z * f64)) : bool :=
  answers c q ans.*1 && descending ans && bool_decide (NoDup ans.*1) &&
  forallb (fun p => match c !! p.1 with Some s => bool_decide (sim s q = p.2) | None => false end) ans.

Lemma sorted_unique (l l' : list (Z * f64)) : l ≡ₚ l' ->
  (forall i j a b, i < j -> l !! i = Some a -> l !! j = Some b -> f64_ge a.2 b.2 = true) -> descending l' = true -> l = l'.
Proof.
  revert l. induction l' as [|y l' IH]; intros l Hp Hs Hd; [by apply Permutation_nil_r in Hp|].
  cbn [descending] in Hd. apply andb_true_iff in Hd as [Hy Hd]. rewrite forallb_forall in Hy.
  destruct l as [|x l]; [by apply Permutation_nil_l in Hp|].
  assert (x = y) as ->.
  { assert (Hx : x ∈ y :: l') by (rewrite <- Hp; left). apply elem_of_cons in Hx as [|Hx]; [done|]. exfalso.
    specialize (Hy x (proj1 (elem_of_list_In _ _) Hx)). apply andb_true_iff in Hy as [Hy1 Hy]. apply negb_true_iff in Hy.
    assert (Hyl : y ∈ x :: l) by (rewrite Hp; left). apply elem_of_list_lookup in Hyl as [[|j] Hj].
    - cbn in Hj. injection Hj as ->. congruence.
    - specialize (Hs 0 (S j) x y ltac:(lia) eq_refl Hj). congruence. }
  f_equal. apply IH; [by apply Permutation_cons_inv in Hp| |done].
  intros i j a b Hij Ha Hb. apply (Hs (S i) (S j) a b); [lia|done|done].
Qed.

Lemma query_ranked (sort : list (Z * f64) -> list (Z * f64)) ops doc q ans : is_sort f64_ge sort -> cfresh toks ops ->
  doc_sig doc = Some q -> ranked (sg <$> ccontent toks ops) q ans = true ->
  class_query_return_similarity lower shingles_str shingles_words hash_token bh order sort (crun new ops) doc = Some ans.
Proof.
  intros Hsort Hf Hq. unfold ranked. rewrite !andb_true_iff, forallb_forall. intros [[[Ha Hd] Hnd%bool_decide_eq_true_1] Hv].
  destruct (doc_sig_ok doc q Hq) as (t & Et & <-).
  destruct (C57_class_similarity lower shingles_str shingles_words hash_token draws bh ck hk order sort nb bw th an lc range ops doc t Ho Hsort Hf Et)
    as (l & Hl & Hndl & Hin & Hs).
  rewrite Hl. f_equal. apply sorted_unique; [|exact Hs|exact Hd].
  apply NoDup_Permutation; [by eapply NoDup_fmap_1|by eapply NoDup_fmap_1|]. intros [id v].
  assert (Hval : forall id v, (id, v) ∈ ans -> exists t', ccontent toks ops !! id = Some t' /\ v = sim (sg t') (sg t)).
  { intros id' v' Hp. specialize (Hv (id', v') (proj1 (elem_of_list_In _ _) Hp)). cbn [fst snd] in Hv. rewrite lookup_fmap in Hv.
    destruct (ccontent toks ops !! id') as [t'|]; [|done]. cbn in Hv. apply bool_decide_eq_true_1 in Hv. by exists t'. }
  rewrite Hin, (answers_spec bh _ _ _ id Ha). split.
  - intros [Hi (t' & Hc & ->)]. apply elem_of_list_fmap in Hi as ([id' v'] & -> & Hp). cbn [fst] in *.
    destruct (Hval id' v' Hp) as (t'' & Hc' & ->). rewrite Hc in Hc'. by injection Hc' as <-.
  - intros Hp. split; [apply elem_of_list_fmap; by exists (id, v)|by apply Hval].
Qed.
End Table.
