(** Proofs about the tables of a simhash index. *)
From stdpp Require Import base list gmap.
From Coq Require Import NArith Lia.
From Verif Require Import Base Par ParFacts SimHashBits Permutation SimHashIndex SpecSimHash SpecIndex SpecTuples
  BitsFacts PermutationFacts SimHashIndexFacts SpecTables.
Local Open Scope nat_scope.

(** ** Binomial coefficients *)
Lemma binom_small n k : n < k -> binom n k = 0.
Proof. revert k. induction n as [|n IH]; intros [|k] Hk; try lia; [done|]. cbn. rewrite !IH by lia. done. Qed.
Lemma binom_mono n n' k : n <= n' -> binom n k <= binom n' k.
Proof.
  induction 1 as [|n' _ IH]; [done|]. etransitivity; [exact IH|]. clear. destruct k as [|k]; [by destruct n'|].
  cbn. lia.
Qed.
Lemma binom_pos n k : k <= n -> 0 < binom n k.
Proof. revert k. induction n as [|n IH]; intros [|k] Hk; cbn; try lia. specialize (IH k). lia. Qed.

(** How many combinations consist of elements with [P] only. *)
Lemma combinations_all {A} (P : A -> Prop) `{!forall x, Decision (P x)} k (l : list A) :
  length (filter (Forall P) (combinations k l)) = binom (length (filter P l)) k.
Proof.
  revert k. induction l as [|x l IH]; intros [|k].
  - done.
  - done.
  - cbn [combinations]. rewrite filter_cons, decide_True by constructor. generalize (length (filter P (x :: l))). by intros [|].
  - cbn [combinations]. rewrite filter_app, app_length, IH, (filter_cons P x l).
    assert (E : length (filter (Forall P) (cons x <$> combinations k l)) =
      if decide (P x) then length (filter (Forall P) (combinations k l)) else 0).
    { induction (combinations k l) as [|c cs IHc]; [by destruct (decide (P x))|].
      cbn [fmap list_fmap]. rewrite !filter_cons. destruct (decide (P x)) as [Hx|Hx].
      - destruct (decide (Forall P c)) as [Hc|Hc].
        + rewrite decide_True by by constructor. cbn [length]. by f_equal.
        + rewrite decide_False; [done|]. by intros [_ ?]%Forall_cons.
      - rewrite decide_False; [done|]. by intros [? _]%Forall_cons. }
    rewrite E. destruct (decide (P x)); [|done]. rewrite IH. done.
Qed.

Lemma sum_app' l1 l2 : sum_list (l1 ++ l2) = sum_list l1 + sum_list l2.
Proof. induction l1 as [|x l1 IH]; [done|]. cbn. rewrite IH. lia. Qed.
Lemma sum_cons x l : sum_list (x :: l) = x + sum_list l.
Proof. done. Qed.
(** Summing over both lists in either order. *)
Lemma sum_swap {A B} (R : A -> B -> Prop) `{!forall a b, Decision (R a b)} (la : list A) (lb : list B) :
  sum_list ((fun a => length (filter (R a) lb)) <$> la) =
  sum_list ((fun b => length (filter (fun a => R a b) la)) <$> lb).
Proof.
  revert la. induction lb as [|b lb IH]; intros la.
  - cbn. induction la as [|a la IHa]; [done|]. cbn. by rewrite IHa.
  - cbn [fmap list_fmap]. rewrite !sum_cons. rewrite <- IH. clear IH. induction la as [|a la IHa]; [done|].
    cbn [fmap list_fmap]. rewrite !sum_cons. rewrite IHa, !filter_cons. destruct (decide (R a b)); cbn [length]; lia.
Qed.

(** ** All numbers of [W] bits *)
Fixpoint numbers (W : nat) : list N :=
  match W with 0 => [0%N] | S W' => ((fun v => 2 * v)%N <$> numbers W') ++ ((fun v => 2 * v + 1)%N <$> numbers W') end.
Lemma elem_of_numbers W v : v ∈ numbers W <-> (v < 2 ^ N.of_nat W)%N.
Proof.
  revert v. induction W as [|W IH]; intros v.
  - cbn. rewrite elem_of_list_singleton. change (2 ^ 0)%N with 1%N. lia.
  - cbn [numbers]. rewrite elem_of_app, !elem_of_list_fmap. setoid_rewrite IH. rewrite Nnat.Nat2N.inj_succ, N.pow_succ_r'. split.
    + intros [(u & -> & Hu)|(u & -> & Hu)]; lia.
    + intros Hv. destruct (N.Even_or_Odd v) as [[u ->]|[u ->]]; [left|right]; exists u; (split; [done|]); lia.
Qed.
Lemma numbers_nodup W : NoDup (numbers W).
Proof.
  induction W as [|W IH]; [apply NoDup_singleton|]. cbn [numbers]. apply NoDup_app. split; [|split].
  - apply NoDup_fmap; [intros x y ?; lia|done].
  - intros x (u & -> & _)%elem_of_list_fmap (v & E & _)%elem_of_list_fmap. lia.
  - apply NoDup_fmap; [intros x y ?; lia|done].
Qed.
Definition free (W : nat) (M : N) : nat := length (filter (fun j => bit M j = false) (seq 0 W)).
Lemma free_succ W M : free (S W) M = (if bit M 0 then 0 else 1) + free W (N.div2 M).
Proof.
  unfold free. cbn [seq]. rewrite filter_cons.
  assert (E : length (filter (fun j => bit M j = false) (seq 1 W)) = length (filter (fun j => bit (N.div2 M) j = false) (seq 0 W))).
  { rewrite <- fmap_S_seq. generalize (seq 0 W). intros l. induction l as [|j l IHl]; [done|]. cbn [fmap list_fmap].
    rewrite !filter_cons, bit_succ. destruct (decide _); cbn [length]; by rewrite IHl. }
  destruct (bit M 0); [rewrite decide_False by done|rewrite decide_True by done]; cbn [length]; rewrite E; done.
Qed.
Lemma land_step (b : bool) v y M :
  N.land (2 * v + if b then 1 else 0) M = N.land y M <->
  (bit M 0 = true -> b = bit y 0) /\ N.land v (N.div2 M) = N.land (N.div2 y) (N.div2 M).
Proof.
  rewrite !land_agree.
  assert (H0 : bit (2 * v + if b then 1 else 0) 0 = b).
  { unfold bit. cbn [N.of_nat]. destruct b; [by rewrite N.testbit_odd_0|by rewrite N.add_0_r, N.testbit_even_0]. }
  assert (HS : forall j, bit (2 * v + if b then 1 else 0) (S j) = bit v j).
  { intros j. rewrite bit_succ. f_equal. destruct b; [by destruct v|rewrite N.add_0_r; by destruct v]. }
  split.
  - intros Hb. split.
    + intros HM. rewrite <- (Hb 0 HM). by rewrite H0.
    + intros j HM. rewrite <- bit_succ in HM |- *. rewrite <- (Hb (S j) HM). by rewrite HS.
  - intros [Ha Hb] [|j] HM; [rewrite H0; by apply Ha|]. rewrite HS, bit_succ. apply Hb. by rewrite <- bit_succ.
Qed.
Lemma filter_map {A B} (f : A -> B) (P : B -> Prop) (Q : A -> Prop) `{!forall x, Decision (P x)} `{!forall x, Decision (Q x)} l :
  (forall x, P (f x) <-> Q x) -> length (filter P (f <$> l)) = length (filter Q l).
Proof.
  intros HPQ. induction l as [|x l IH]; [done|]. cbn [fmap list_fmap]. rewrite !filter_cons. specialize (HPQ x).
  destruct (decide (P (f x))), (decide (Q x)); cbn [length]; rewrite ?IH; tauto || done.
Qed.
Lemma filter_none {A} (P : A -> Prop) `{!forall x, Decision (P x)} l : (forall x, ~ P x) -> length (filter P l) = 0.
Proof. intros HP. induction l as [|x l IH]; [done|]. rewrite filter_cons, decide_False by done. done. Qed.
Lemma numbers_meeting W y M : (M < 2 ^ N.of_nat W)%N ->
  length (filter (fun q => N.land q M = N.land y M) (numbers W)) = 2 ^ free W M.
Proof.
  revert y M. induction W as [|W IH]; intros y M HM.
  - assert (M = 0%N) as -> by (change (2 ^ N.of_nat 0)%N with 1%N in HM; lia). cbn [numbers]. rewrite filter_cons, decide_True by by rewrite !N.land_0_r. done.
  - assert (HM' : (N.div2 M < 2 ^ N.of_nat W)%N).
    { rewrite N.div2_div. rewrite Nnat.Nat2N.inj_succ, N.pow_succ_r' in HM. apply N.div_lt_upper_bound; lia. }
    cbn [numbers]. rewrite filter_app, app_length, free_succ. specialize (IH (N.div2 y) (N.div2 M) HM').
    pose proof (land_step false) as L0. pose proof (land_step true) as L1. cbn iota in L0, L1. setoid_rewrite N.add_0_r in L0.
    destruct (bit M 0) eqn:E0.
    + destruct (bit y 0) eqn:Ey.
      * rewrite (filter_map (fun v => 2 * v)%N _ (fun _ => False)).
        2:{ intros v. rewrite L0, E0, Ey. split; [|done]. intros [Hc _]. by specialize (Hc eq_refl). }
        rewrite (filter_none (fun _ : N => False)) by (intros ? []; assumption). cbn [Nat.add]. rewrite <- IH.
        apply filter_map. intros v. rewrite L1, E0, Ey. tauto.
      * rewrite (filter_map (fun v => 2 * v + 1)%N _ (fun _ => False)).
        2:{ intros v. rewrite L1, E0, Ey. split; [|done]. intros [Hc _]. by specialize (Hc eq_refl). }
        rewrite (filter_none (fun _ : N => False)) by (intros ? []; assumption). rewrite Nat.add_0_r. cbn [Nat.add]. rewrite <- IH.
        apply filter_map. intros v. rewrite L0, E0, Ey. tauto.
    + rewrite (filter_map (fun v => 2 * v)%N _ (fun v => N.land v (N.div2 M) = N.land (N.div2 y) (N.div2 M))).
      2:{ intros v. rewrite L0, E0. split; [tauto|]. intros ?. split; [done|done]. }
      rewrite (filter_map (fun v => 2 * v + 1)%N _ (fun v => N.land v (N.div2 M) = N.land (N.div2 y) (N.div2 M))).
      2:{ intros v. rewrite L1, E0. split; [tauto|]. intros ?. split; [done|done]. }
      rewrite IH. cbn [Nat.add Nat.pow]. lia.
Qed.
Lemma meeting_count W y M vs : NoDup vs -> (forall v, v ∈ vs <-> (v < 2 ^ N.of_nat W)%N) -> (M < 2 ^ N.of_nat W)%N ->
  length (filter (fun q => N.land q M = N.land y M) vs) = 2 ^ (W - length (filter (fun j => bit M j = true) (seq 0 W))).
Proof.
  intros Hnd Hvs HM. assert (Hp : vs ≡ₚ numbers W).
  { apply NoDup_Permutation; [done|apply numbers_nodup|]. intros v. by rewrite Hvs, elem_of_numbers. }
  rewrite Hp, numbers_meeting by done. f_equal. unfold free.
  pose proof (filter_split_length (fun j => bit M j = true) (seq 0 W)) as E. rewrite seq_length in E.
  assert (length (filter (fun j => ~ bit M j = true) (seq 0 W)) = length (filter (fun j => bit M j = false) (seq 0 W))).
  { f_equal. apply filter_ext_length. intros j _. by rewrite not_true_iff_false. }
  lia.
Qed.

Section Tables.
Context {Id : Type} `{Countable Id}.

Notation under p key := (fun e : Id * N => N.land e.2 (simple_mask p) = key).

(** What a table holds. *)
Definition holds (es : list (Id * N)) (t : table Id) : Prop :=
  forall key, t_table t !! key =
    match (filter (under (t_perm t) key) es).*1 with [] => None | l => Some l end.
Lemma holds_default es t key : holds es t -> default [] (t_table t !! key) = (filter (under (t_perm t) key) es).*1.
Proof. intros Ht. rewrite Ht. by destruct (filter _ es).*1. Qed.
Lemma holds_insert es t id s : holds es t -> holds (es ++ [(id, s)]) (table_insert id s t).
Proof.
  intros Ht key. unfold table_insert. cbn [t_table t_perm]. rewrite filter_app, fmap_app, filter_cons, filter_nil. cbn [snd].
  destruct (decide (N.land s (simple_mask (t_perm t)) = key)) as [<-|Hne].
  - rewrite lookup_insert, (holds_default es t _ Ht). cbn [fmap list_fmap fst].
    destruct (_ ++ [id]) eqn:E; [|done]. by destruct (filter _ es).*1.
  - rewrite lookup_insert_ne by done. cbn. rewrite app_nil_r. apply Ht.
Qed.
Lemma holds_many es ps t : holds es t -> holds (es ++ ps) (fold_left (fun t p => table_insert p.1 p.2 t) ps t).
Proof.
  revert es t. induction ps as [|[id s] ps IH]; intros es t Ht; [by rewrite app_nil_r|].
  cbn [fold_left fst snd]. specialize (IH _ _ (holds_insert es t id s Ht)). by rewrite <- app_assoc in IH.
Qed.
Lemma step_tables (m : sindex Id) o :
  hash_tables (sstep m o) = (fun t => fold_left (fun t p => table_insert p.1 p.2 t) (inserted o) t) <$> hash_tables m.
Proof.
  destruct o as [id s|sched ids sigs|sched ps]; cbn [sstep inserted].
  - done.
  - rewrite spar_bulk_insert_eq, sinserts_eq. done.
  - rewrite spar_bulk_insert_pairs_eq, sinserts_eq. done.
Qed.
Lemma run_holds es ops (m : sindex Id) : Forall (holds es) (hash_tables m) ->
  Forall (holds (es ++ insertions ops)) (hash_tables (foldl sstep m ops)).
Proof.
  revert es m. induction ops as [|o ops IH]; intros es m Hm; [cbn; by rewrite app_nil_r|].
  cbn [foldl]. unfold insertions. cbn [fmap list_fmap concat]. rewrite app_assoc. apply IH. rewrite step_tables. apply Forall_fmap.
  eapply Forall_impl; [exact Hm|]. intros t Ht. by apply holds_many.
Qed.
Lemma after_holds W nb d ops (m : sindex Id) : safter W nb d ops = Some m -> Forall (holds (insertions ops)) (hash_tables m).
Proof.
  unfold safter. intros (m0 & E & [= <-])%bind_Some. apply (run_holds [] ops). unfold sindex_new in E.
  apply bind_Some in E as (perms & _ & E). destruct perms as [|p ps]; [done|]. injection E as <-.
  change (hash_tables _) with ((fun p : permutation => Table p (∅ : gmap N (list Id))) <$> (p :: ps)). apply Forall_fmap, Forall_true. intros q key. cbn. by rewrite lookup_empty.
Qed.

(** All entries of a table. *)
Definition entries (t : table Id) : list Id := concat (map_to_list (t_table t)).*2.
Lemma entries_insert id s t : entries (table_insert id s t) ≡ₚ id :: entries t.
Proof.
  unfold entries, table_insert. cbn [t_table]. set (key := N.land _ _). destruct (t_table t !! key) as [l|] eqn:E; cbn [default].
  - rewrite <- insert_delete_insert. rewrite map_to_list_insert by apply lookup_delete.
    rewrite <- (insert_delete (t_table t) key l E) at 2. rewrite map_to_list_insert by apply lookup_delete.
    cbn. rewrite <- !app_assoc. cbn. by rewrite Permutation_middle.
  - rewrite map_to_list_insert by done. done.
Qed.
Lemma entries_many ps t : entries (fold_left (fun t p => table_insert p.1 p.2 t) ps t) ≡ₚ ps.*1 ++ entries t.
Proof.
  revert t. induction ps as [|[id s] ps IH]; intros t; [done|]. cbn [fold_left fst snd]. rewrite IH, entries_insert. cbn.
  by rewrite Permutation_middle.
Qed.
Lemma after_entries W nb d ops (m : sindex Id) : safter W nb d ops = Some m ->
  Forall (fun t => entries t ≡ₚ (insertions ops).*1) (hash_tables m).
Proof.
  unfold safter. intros (m0 & E & [= <-])%bind_Some.
  assert (Hm : Forall (fun t => entries t ≡ₚ ([] : list (Id * N)).*1) (hash_tables m0)).
  { unfold sindex_new in E. apply bind_Some in E as (perms & _ & E). destruct perms as [|p ps]; [done|]. injection E as <-.
    change (hash_tables _) with ((fun p : permutation => Table p (∅ : gmap N (list Id))) <$> (p :: ps)). apply Forall_fmap, Forall_true. intros q. unfold entries. cbn. by rewrite map_to_list_empty. }
  clear E. change (insertions ops) with ([] ++ insertions ops). revert Hm. generalize (@nil (Id * N)). revert m0.
  induction ops as [|o ops IH]; intros m es Hm; [cbn; by rewrite app_nil_r|].
  cbn [foldl]. unfold insertions. cbn [fmap list_fmap concat]. rewrite app_assoc. apply IH. rewrite step_tables. apply Forall_fmap.
  eapply Forall_impl; [exact Hm|]. intros t Ht. unfold compose. rewrite entries_many, Ht, fmap_app. apply Permutation_app_comm.
Qed.

(** ** Comparisons *)
Lemma perm_meet W nb I p x y : nb <= W -> I `sublist_of` seq 0 nb -> perm_ok W nb I p ->
  N.land x (simple_mask p) = N.land y (simple_mask p) <-> Forall (same_block W nb x y) I.
Proof.
  intros Hn HI (_ & Hm & _). rewrite land_agree, Forall_forall. unfold same_block. split.
  - intros Hb i Hi. apply Forall_forall. intros j Hj%elem_of_seq. apply Hb, Hm. exists i. split; [done|]. unfold in_block. lia.
  - intros Hb j (i & Hi & Hj)%Hm. specialize (Hb i Hi). rewrite Forall_forall in Hb. apply Hb, elem_of_seq. unfold in_block in Hj. lia.
Qed.
Lemma tables_meeting W nb d perms x y : nb <= W ->
  Forall2 (perm_ok W nb) (combinations (nb - d) (seq 0 nb)) perms ->
  length (filter (fun p => N.land y (simple_mask p) = N.land x (simple_mask p)) perms) = binom (same_blocks W nb x y) (nb - d).
Proof.
  intros Hn HF. unfold same_blocks. rewrite <- combinations_all.
  assert (Hall : forall I, I ∈ combinations (nb - d) (seq 0 nb) -> I `sublist_of` seq 0 nb) by (intros I HI; by apply elem_of_combinations in HI as [? _]).
  induction HF as [|I p Is ps Hp HF IH]; [done|]. rewrite !filter_cons.
  specialize (IH (fun J HJ => Hall J (elem_of_list_further _ _ _ HJ))).
  pose proof (perm_meet W nb I p x y Hn (Hall I (elem_of_list_here _ _)) Hp) as Hmeet.
  destruct (decide (Forall (same_block W nb x y) I)) as [Hy|Hy].
  - rewrite decide_True by (symmetry; tauto). cbn [length]. by rewrite IH.
  - rewrite decide_False by (intros Hc; symmetry in Hc; tauto). exact IH.
Qed.
Lemma after_perms W nb d ops (m : sindex Id) : 1 < W -> d <= nb <= W -> safter W nb d ops = Some m ->
  Forall2 (perm_ok W nb) (combinations (nb - d) (seq 0 nb)) (t_perm <$> hash_tables m).
Proof.
  intros HW Hd E. unfold safter in E. apply bind_Some in E as (m0 & E0 & [= <-]). destruct (sindex_new_inv (Id := Id) W nb d HW Hd) as (m1 & E1 & H1).
    rewrite E0 in E1. injection E1 as <-. apply inv_perms in H1. clear -H1. revert m0 H1.
    induction ops as [|o ops IH]; intros m0 H1; [done|]. cbn [foldl]. apply IH. rewrite step_tables, <- list_fmap_compose.
    rewrite (list_fmap_ext _ t_perm (hash_tables m0)); [done|]. intros i t _. unfold compose.
    generalize (inserted o). intros ps. revert t. induction ps as [|p ps IHp]; intros t; [done|]. cbn. rewrite IHp. done.
Qed.
Lemma after_comparisons W nb d ops (m : sindex Id) q : 1 < W -> d <= nb <= W -> safter W nb d ops = Some m ->
  comparisons m q = sum_list ((fun e => binom (same_blocks W nb q e.2) (nb - d)) <$> insertions ops).
Proof.
  intros HW Hd E. pose proof (after_holds W nb d ops m E) as Hh.
  pose proof (after_perms W nb d ops m HW Hd E) as Hp.
  unfold comparisons.
  transitivity (sum_list ((fun p => length (filter (fun e : Id * N => N.land e.2 (simple_mask p) = N.land q (simple_mask p)) (insertions ops)))
    <$> (t_perm <$> hash_tables m))).
  { rewrite <- list_fmap_compose. f_equal. apply list_fmap_ext. intros i t Ht. unfold compose, looked_at.
    rewrite (holds_default (insertions ops)); [by rewrite fmap_length|]. rewrite Forall_lookup in Hh. eauto. }
  rewrite (sum_swap (fun p (e : Id * N) => N.land e.2 (simple_mask p) = N.land q (simple_mask p))). f_equal.
  apply list_fmap_ext. intros i e _. apply (tables_meeting W nb d); [lia|done].
Qed.

(** Blocks that differ have bits that differ. *)
Lemma same_blocks_near W nb x y : nb <= W -> nb - hamming W x y <= same_blocks W nb x y <= nb.
Proof.
  intros Hn. split.
  - destruct (decide (hamming W x y <= nb)) as [Hh|Hh]; [|lia]. destruct (decide (1 < W)) as [HW|HW].
    + destruct (agreeing_blocks W nb (hamming W x y) x y HW Hn Hh ltac:(done)) as (I & HI & Hag).
      apply elem_of_combinations in HI as [Hs Hl]. rewrite <- Hl. unfold same_blocks.
      assert (Hf : filter (same_block W nb x y) I = I).
      { assert (HF : Forall (same_block W nb x y) I).
        { apply Forall_forall. intros i Hi. apply Forall_forall. intros j Hj%elem_of_seq. apply (Hag i j Hi). unfold in_block. lia. }
        clear -HF. induction HF as [|i I Hi HF IH]; [done|]. by rewrite filter_cons, decide_True, IH. }
      rewrite <- Hf. clear -Hs. induction Hs as [|i l k Hs IH|i l k Hs IH]; [done| |]; rewrite ?filter_cons; destruct (decide _); cbn; lia.
    + assert (nb = 0 \/ nb = 1) as [-> | ->] by lia; [lia|]. assert (W = 1) as -> by lia. unfold same_blocks, hamming. cbn [seq].
      rewrite !filter_cons, !filter_nil. unfold same_block. cbn.
      destruct (decide (Forall _ [0])) as [|Hc]; [cbn; destruct (decide _); cbn; lia|].
      destruct (decide _) as [|Hc2]; [cbn; lia|]. exfalso. apply Hc. constructor; [|constructor]. by destruct (decide (bit x 0 = bit y 0)).
  - unfold same_blocks. etransitivity; [apply filter_length|]. by rewrite seq_length.
Qed.
Lemma same_blocks_refl W nb x : same_blocks W nb x x = nb.
Proof.
  unfold same_blocks. transitivity (length (seq 0 nb)); [|by rewrite seq_length]. f_equal. generalize (seq 0 nb). intros l.
  induction l as [|i l IH]; [done|]. rewrite filter_cons, decide_True by by apply Forall_true. by rewrite IH.
Qed.

Lemma after_length W nb d ops (m : sindex Id) : 1 < W -> d <= nb <= W -> safter W nb d ops = Some m ->
  length (hash_tables m) = binom nb (nb - d).
Proof.
  intros HW Hd E. unfold safter in E. apply bind_Some in E as (m0 & E0 & [= <-]).
  destruct (sindex_new_inv (Id := Id) W nb d HW Hd) as (m1 & E1 & H1). rewrite E0 in E1. injection E1 as <-. apply inv_perms in H1.
  transitivity (length (hash_tables m0)).
  { clear. revert m0. induction ops as [|o ops IH]; intros m0; [done|]. cbn [foldl]. by rewrite IH, step_tables, fmap_length. }
  apply Forall2_length in H1. rewrite fmap_length in H1. rewrite <- H1.
  pose proof (combinations_all (fun _ : nat => True) (nb - d) (seq 0 nb)) as Hc.
  assert (Hf : forall {A} (Q : A -> Prop) `{!forall x, Decision (Q x)} (l : list A), (forall x, Q x) -> filter Q l = l).
  { intros A Q ? l HQ. induction l as [|x l IH]; [done|]. by rewrite filter_cons, decide_True, IH. }
  rewrite !Hf, seq_length in Hc; [done|done|]. intros I. by apply Forall_true.
Qed.
Lemma insertions_app (ops ops' : list (sop Id)) : insertions (ops ++ ops') = insertions ops ++ insertions ops'.
Proof. unfold insertions. by rewrite fmap_app, concat_app. Qed.
Lemma insertions_repeat k (id : Id) s : insertions (replicate k (SInsert id s)) = replicate k (id, s).
Proof. induction k as [|k IH]; [done|]. unfold insertions in *. cbn. by rewrite IH. Qed.
Lemma sum_replicate k x : sum_list (replicate k x) = k * x.
Proof. induction k as [|k IH]; [done|]. cbn [replicate]. rewrite sum_cons, IH. lia. Qed.
Lemma spec_repeat k (ops : list (sop Id)) id s : sspec_map (ops ++ replicate (S k) (SInsert id s)) = sspec_map (ops ++ [SInsert id s]).
Proof.
  unfold sspec_map. rewrite !foldl_app. generalize (foldl sspec_step ∅ ops). intros m. cbn [replicate foldl sspec_step].
  assert (G : forall m' : gmap Id N, m' !! id = Some s -> foldl sspec_step m' (replicate k (SInsert id s)) = m').
  { induction k as [|k IH]; intros m' Hm'; [done|]. cbn. rewrite insert_id by done. by apply IH. }
  apply G. by rewrite lookup_insert.
Qed.

(** The masks of the tables. *)
Lemma after_masks W nb d ops (m : sindex Id) t : 1 < W -> d <= nb <= W -> safter W nb d ops = Some m -> t ∈ hash_tables m ->
  (simple_mask (t_perm t) < 2 ^ N.of_nat W)%N /\
  width (t_perm t) = length (filter (fun j => bit (simple_mask (t_perm t)) j = true) (seq 0 W)).
Proof.
  intros HW Hd E Ht. apply after_perms in E as Hp; [|done..].
  assert (Hin : t_perm t ∈ t_perm <$> hash_tables m) by (apply elem_of_list_fmap; eauto).
  apply elem_of_list_lookup in Hin as [i Hi]. destruct (Forall2_lookup_r _ _ _ _ _ Hp Hi) as (I & HI & Hok).
  assert (Hs : I `sublist_of` seq 0 nb) by (apply elem_of_list_lookup_2, elem_of_combinations in HI as [? _]; done).
  destruct (perm_ok_facts W nb I (t_perm t) HW ltac:(lia) Hs Hok) as (H1 & _ & H3 & _). split; [|done].
  apply bound_of_bits. intros j Hj. destruct (bit _ j) eqn:Eb; [|done]. apply H3 in Eb. lia.
Qed.
Lemma after_total W nb d ops (m : sindex Id) vs : 1 < W -> d <= nb <= W -> safter W nb d ops = Some m ->
  NoDup vs -> (forall v, v ∈ vs <-> (v < 2 ^ N.of_nat W)%N) ->
  sum_list (comparisons m <$> vs) =
    length (insertions ops) * sum_list ((fun t => 2 ^ (W - width (t_perm t))) <$> hash_tables m).
Proof.
  intros HW Hd E Hnd Hvs. pose proof (after_holds W nb d ops m E) as Hh. rewrite Forall_forall in Hh.
  assert (Hmask : forall t, t ∈ hash_tables m -> (simple_mask (t_perm t) < 2 ^ N.of_nat W)%N /\
    width (t_perm t) = length (filter (fun j => bit (simple_mask (t_perm t)) j = true) (seq 0 W))).
  { intros t Ht. by apply (after_masks W nb d ops m t). }
  unfold comparisons. clear E. revert Hh Hmask. generalize (hash_tables m). intros ts. induction ts as [|t ts IH]; intros Hh Hmask.
  - cbn. rewrite Nat.mul_0_r. clear. induction vs as [|v vs IH]; [done|]. cbn [fmap list_fmap]. rewrite sum_cons. exact IH.
  - cbn [fmap list_fmap]. rewrite sum_cons, Nat.mul_add_distr_l, <- IH.
    2:{ intros t' Ht'. apply Hh. by right. } 2:{ intros t' Ht'. apply Hmask. by right. }
    transitivity (sum_list ((fun q => length (looked_at q t)) <$> vs) +
      sum_list ((fun q => sum_list ((fun t => length (looked_at q t)) <$> ts)) <$> vs)).
    { clear. induction vs as [|v vs IH]; [done|]. cbn [fmap list_fmap]. rewrite !sum_cons, IH. cbn [fmap list_fmap]. lia. }
    f_equal. destruct (Hmask t (elem_of_list_here _ _)) as [HM ->].
    set (M := simple_mask (t_perm t)) in *.
    transitivity (sum_list ((fun q => length (filter (fun e : Id * N => N.land e.2 M = N.land q M) (insertions ops))) <$> vs)).
    { f_equal. apply list_fmap_ext. intros i q _. unfold looked_at. rewrite (holds_default (insertions ops)) by (apply Hh; by left).
      by rewrite fmap_length. }
    rewrite (sum_swap (fun q (e : Id * N) => N.land e.2 M = N.land q M)). clear -Hnd Hvs HM.
    induction (insertions ops) as [|e es IH]; [done|]. cbn [fmap list_fmap]. rewrite sum_cons, IH. cbn [length].
    rewrite <- (meeting_count W e.2 M vs Hnd Hvs HM). cbn [Nat.mul]. f_equal. f_equal. apply filter_ext_length. intros q _. split; congruence.
Qed.
End Tables.
