(** Proofs about minhash signatures. *)
From stdpp Require Import base list.
From Coq Require Import NArith ZArith Reals.
From Verif Require Import Base Par ParFacts Float FloatFacts F64Facts Similarity SpecIndex
  SimilarityFacts MinHashIndexFacts2 SimilarityThms MinHasher SpecMinHash.
Local Open Scope N_scope.

Lemma min_by_from_N acc l :
  is_least (min_by_from N.compare acc l) (acc :: l).
Proof.
  revert acc. induction l as [|x l IH]; intros acc; simpl.
  { split; [by left|]. intros y ->%elem_of_list_singleton. lia. }
  destruct (IH (match acc ?= x with Gt => x | _ => acc end)) as [H1 H2].
  set (r := min_by_from _ _ _) in *. split.
  - destruct (N.compare_spec acc x); set_solver.
  - intros y Hy. apply elem_of_cons in Hy.
    assert (Hr : r <= match acc ?= x with Gt => x | _ => acc end) by (apply H2; by left).
    destruct Hy as [->|Hy].
    + destruct (N.compare_spec acc x); lia.
    + apply elem_of_cons in Hy as [->|Hy].
      * destruct (N.compare_spec acc x); lia.
      * apply H2. by right.
Qed.

Lemma min_by_least l v : min_by N.compare l = Some v -> is_least v l.
Proof. destruct l as [|x l]; [done|]. simpl. intros [= <-]. apply min_by_from_N. Qed.

Lemma min_by_is_Some l : l ≠ [] -> is_Some (min_by N.compare l).
Proof. destruct l; [done|]. simpl. eauto. Qed.

Lemma least_unique l1 l2 v1 v2 :
  (forall x, x ∈ l1 <-> x ∈ l2) -> is_least v1 l1 -> is_least v2 l2 -> v1 = v2.
Proof.
  intros Heq [H1 M1] [H2 M2]. apply Heq in H1. apply Heq in H2.
  pose proof (M1 _ H2). pose proof (M2 _ H1). lia.
Qed.

Lemma mapM_ext_in {A B} (f g : A -> option B) l :
  (forall x, x ∈ l -> f x = g x) -> mapM f l = mapM g l.
Proof.
  induction l as [|x l IH]; intros Hf; [done|]. simpl.
  rewrite Hf by (by left). rewrite IH by (intros; apply Hf; by right). done.
Qed.
Lemma mapM_fmap_inner {A B C} (g : A -> B) (f : B -> option C) l :
  mapM f (g <$> l) = mapM (fun x => f (g x)) l.
Proof. induction l as [|x l IH]; [done|]. cbn. by rewrite <- IH. Qed.

Section Facts.
Context {U : Type} (hash : U -> N).

Lemma hash_at_32_affine k ab u : k ≠ MinHasher64V1 ->
  hash_at_32 ab (hash u mod u32) = affine k ab.1 ab.2 (hash u).
Proof.
  intros Hk. unfold hash_at_32, wrapping_add, wrapping_mul, affine.
  assert (E : ((hash u mod u32 * ab.1) mod u32 + ab.2) mod u32
              = (hash u * ab.1 + ab.2) mod 2 ^ 32).
  { change u32 with (2 ^ 32). rewrite N.mul_mod_idemp_l, N.add_mod_idemp_l by done. done. }
  destruct k; try done; by rewrite E.
Qed.

Lemma hash_at_64_affine ab u : hash_at_64 ab (hash u) = affine MinHasher64V1 ab.1 ab.2 (hash u).
Proof.
  unfold hash_at_64, wrapping_add, wrapping_mul, affine. change u64 with (2 ^ 64).
  rewrite N.add_mod_idemp_l by done. done.
Qed.

(** What the signature is: at each position the truncated least hash. *)
Lemma create_signature_spec k m items :
  length (coef_a m) = num_hashes m -> length (coef_b m) = num_hashes m ->
  exists s, create_signature k hash m items = Some s /\ length s = num_hashes m /\
    forall i v, s !! i = Some v ->
      match items with
      | [] => v = 0
      | _ => exists a b w, coef_a m !! i = Some a /\ coef_b m !! i = Some b /\
             is_least w ((fun u => affine k a b (hash u)) <$> items) /\ v = w mod 2 ^ width k
      end.
Proof.
  intros Ha Hb.
  assert (Hgen : forall (f : N * N -> option N),
     (forall ab, exists w, is_least w ((fun u => affine k ab.1 ab.2 (hash u)) <$> items) /\
                           f ab = Some (w mod 2 ^ width k)) ->
     exists s, mapM f (zip (coef_a m) (coef_b m)) = Some s /\ length s = num_hashes m /\
     forall i v, s !! i = Some v -> exists a b w, coef_a m !! i = Some a /\ coef_b m !! i = Some b /\
       is_least w ((fun u => affine k a b (hash u)) <$> items) /\ v = w mod 2 ^ width k).
  { intros f Hf. destruct (mapM f (zip (coef_a m) (coef_b m))) as [s|] eqn:E.
    - apply mapM_Some in E. exists s. split; [done|]. split.
      + rewrite <- (Forall2_length _ _ _ E), zip_with_length. lia.
      + intros i v Hv. destruct (Forall2_lookup_r _ _ _ _ _ E Hv) as (ab & Hab & Hfa).
        apply lookup_zip_with_Some in Hab as (a & b & -> & Hla & Hlb).
        destruct (Hf (a, b)) as (w & Hw & Hfw). simpl in *.
        exists a, b, w. rewrite Hfw in Hfa. injection Hfa as <-. auto.
    - exfalso. apply mapM_None in E. apply Exists_exists in E as (ab & _ & Hn).
      destruct (Hf ab) as (w & _ & Hfw). congruence. }
  assert (Hempty : exists s, Some (replicate (num_hashes m) 0) = Some s /\
     length s = num_hashes m /\ forall i v, s !! i = Some v -> v = 0).
  { eexists. split; [done|]. split; [by rewrite replicate_length|].
    intros i v [-> _]%lookup_replicate. done. }
  destruct items as [|u0 items].
  { destruct k; exact Hempty. }
  set (its := u0 :: items) in *.
  assert (H32 : k ≠ MinHasher64V1 -> exists s, create_signature_32 hash (2 ^ width k) m its = Some s /\
     length s = num_hashes m /\
     forall i v, s !! i = Some v -> exists a b w, coef_a m !! i = Some a /\ coef_b m !! i = Some b /\
       is_least w ((fun u => affine k a b (hash u)) <$> its) /\ v = w mod 2 ^ width k).
  { intros Hk. apply Hgen. intros ab.
    set (l := hash_at_32 ab <$> ((fun u => hash u mod u32) <$> its)).
    destruct (min_by_is_Some l) as [w Hw]; [done|].
    exists w. rewrite Hw. split; [|done]. apply min_by_least in Hw.
    unfold l in Hw. rewrite <- list_fmap_compose in Hw.
    erewrite list_fmap_ext; [exact Hw|]. intros i u _. symmetry. by apply hash_at_32_affine. }
  destruct k; [by apply H32|by apply H32|by apply H32|].
  apply Hgen. intros ab.
  set (l := hash_at_64 ab <$> (hash <$> its)).
  destruct (min_by_is_Some l) as [w Hw]; [done|].
  exists w. rewrite Hw. apply min_by_least in Hw.
  unfold l in Hw. rewrite <- list_fmap_compose in Hw.
  assert (Hl : is_least w ((fun u => affine MinHasher64V1 ab.1 ab.2 (hash u)) <$> its)).
  { erewrite list_fmap_ext; [exact Hw|]. intros i u _. symmetry. by apply hash_at_64_affine. }
  split; [done|]. f_equal. symmetry. apply N.mod_small.
  destruct Hl as [(u & -> & _)%elem_of_list_fmap _].
  unfold affine. pose proof (N.mod_lt ((hash u * ab.1 + ab.2) mod 2 ^ 64) (2 ^ 61 - 1)).
  simpl width. lia.
Qed.

Lemma lookup_least k m items s i a b v :
  length (coef_a m) = num_hashes m -> length (coef_b m) = num_hashes m -> items ≠ [] ->
  create_signature k hash m items = Some s ->
  coef_a m !! i = Some a -> coef_b m !! i = Some b -> s !! i = Some v ->
  exists w, is_least w ((fun u => affine k a b (hash u)) <$> items) /\ v = w mod 2 ^ width k.
Proof.
  intros Ha Hb Hne Hs Hai Hbi Hv.
  destruct (create_signature_spec k m items Ha Hb) as (s' & Hs' & _ & Hi).
  rewrite Hs in Hs'. injection Hs' as <-. specialize (Hi i v Hv).
  destruct items; [done|]. destruct Hi as (a' & b' & w & Ha' & Hb' & Hw & ->).
  rewrite Hai in Ha'. injection Ha' as <-. rewrite Hbi in Hb'.
  injection Hb' as <-. eauto.
Qed.
End Facts.

(** ** Hashers made by the constructor *)
Section New.
Context {U : Type} (hash : U -> N) (draws : N -> nat -> nat -> N) (n : nat) (seed : N).
Local Notation m := (new_with_hasher_and_seed draws n seed).

Lemma new_a : length (coef_a m) = num_hashes m.
Proof. simpl. by rewrite fmap_length, seq_length. Qed.
Lemma new_b : length (coef_b m) = num_hashes m.
Proof. simpl. by rewrite fmap_length, seq_length. Qed.

Lemma affine_bound k a b h :
  affine k a b h < match k with MinHasher64V1 => 2 ^ 61 - 1 | _ => 2 ^ 31 - 1 end.
Proof. destruct k; unfold affine; apply N.mod_lt; done. Qed.

Definition value_bound (k : hasher_kind) : N :=
  match k with
  | MinHasher32 => 2 ^ 31 - 1 | MinHasher64V1 => 2 ^ 61 - 1
  | MinHasher16 => 2 ^ 16 | MinHasher8 => 2 ^ 8
  end.

Lemma signature_shape k items :
  exists s, create_signature k hash m items = Some s /\ length s = n /\
    (items = [] -> s = replicate n 0) /\ forall v, v ∈ s -> v < value_bound k.
Proof.
  destruct (create_signature_spec hash k m items new_a new_b) as (s & Hs & Hl & Hi).
  exists s. split; [done|]. split; [done|]. split.
  - intros ->. destruct k; cbn in Hs; by injection Hs as <-.
  - intros v Hv. apply elem_of_list_lookup in Hv as [i Hv]. specialize (Hi i v Hv).
    destruct items as [|u items]; [subst; destruct k; done|].
    destruct Hi as (a & b & w & _ & _ & [(u' & -> & _)%elem_of_list_fmap _] & ->).
    pose proof (affine_bound k a b (hash u')) as Hb.
    pose proof (N.mod_le (affine k a b (hash u')) (2 ^ width k) ltac:(destruct k; done)).
    pose proof (N.mod_lt (affine k a b (hash u')) (2 ^ width k) ltac:(destruct k; done)).
    destruct k; simpl in *; lia.
Qed.

Lemma signature_set k xs ys : (forall u, u ∈ xs <-> u ∈ ys) ->
  create_signature k hash m xs = create_signature k hash m ys.
Proof.
  intros Heq.
  destruct (create_signature_spec hash k m xs new_a new_b) as (s & Hs & Hl & Hi).
  destruct (create_signature_spec hash k m ys new_a new_b) as (s' & Hs' & Hl' & Hi').
  rewrite Hs, Hs'. f_equal. apply list_eq. intros i.
  destruct (s !! i) as [v|] eqn:Ev.
  2:{ apply lookup_ge_None in Ev. symmetry. apply lookup_ge_None. lia. }
  destruct (lookup_lt_is_Some_2 s' i) as [v' Ev']; [apply lookup_lt_Some in Ev; lia|].
  rewrite Ev'. f_equal. specialize (Hi i v Ev). specialize (Hi' i v' Ev').
  destruct xs as [|x xs], ys as [|y ys].
  - congruence.
  - exfalso. by apply (elem_of_nil y), Heq; left.
  - exfalso. by apply (elem_of_nil x), Heq; left.
  - destruct Hi as (a & b & w & Ha & Hb & Hw & ->), Hi' as (a' & b' & w' & Ha' & Hb' & Hw' & ->).
    rewrite Ha in Ha'. injection Ha' as <-. rewrite Hb in Hb'. injection Hb' as <-.
    f_equal. eapply least_unique; [|exact Hw|exact Hw'].
    intros z. rewrite !elem_of_list_fmap. setoid_rewrite Heq. done.
Qed.

Lemma affine_small k a b h : full_width k -> affine k a b h mod 2 ^ width k = affine k a b h.
Proof.
  intros Hk. apply N.mod_small. pose proof (affine_bound k a b h).
  destruct Hk as [-> | ->]; simpl in *; lia.
Qed.

Lemma signature_app k xs ys sx sy : full_width k -> xs ≠ [] -> ys ≠ [] ->
  create_signature k hash m xs = Some sx -> create_signature k hash m ys = Some sy ->
  create_signature k hash m (xs ++ ys) = Some (zip_with N.min sx sy).
Proof.
  intros Hk Hx Hy Hsx Hsy.
  destruct (create_signature_spec hash k m (xs ++ ys) new_a new_b) as (s & Hs & Hl & Hi).
  destruct (create_signature_spec hash k m xs new_a new_b) as (sx' & Hsx' & Hlx & _).
  destruct (create_signature_spec hash k m ys new_a new_b) as (sy' & Hsy' & Hly & _).
  rewrite Hsx in Hsx'. injection Hsx' as <-. rewrite Hsy in Hsy'. injection Hsy' as <-.
  rewrite Hs. f_equal. apply list_eq. intros i. rewrite lookup_zip_with.
  destruct (s !! i) as [v|] eqn:Ev.
  2:{ apply lookup_ge_None in Ev. rewrite (proj2 (lookup_ge_None sx i)) by lia. done. }
  pose proof (lookup_lt_Some _ _ _ Ev) as Hlt.
  destruct (lookup_lt_is_Some_2 sx i) as [vx Evx]; [lia|].
  destruct (lookup_lt_is_Some_2 sy i) as [vy Evy]; [lia|].
  rewrite Evx, Evy. simpl. f_equal. specialize (Hi i v Ev).
  destruct (xs ++ ys) as [|z zs] eqn:Ez; [by destruct xs|]. rewrite <- Ez in Hi.
  destruct Hi as (a & b & w & Ha & Hb & Hw & ->).
  destruct (lookup_least hash k m xs sx i a b vx new_a new_b Hx Hsx Ha Hb Evx) as (wx & Hwx & ->).
  destruct (lookup_least hash k m ys sy i a b vy new_a new_b Hy Hsy Ha Hb Evy) as (wy & Hwy & ->).
  assert (E : forall l w, is_least w ((fun u => affine k a b (hash u)) <$> l) ->
     w mod 2 ^ width k = w).
  { intros l w' [(u & -> & _)%elem_of_list_fmap _]. by apply affine_small. }
  rewrite (E _ _ Hw), (E _ _ Hwx), (E _ _ Hwy).
  rewrite fmap_app in Hw. destruct Hw as [Hin Hmin], Hwx as [Hinx Hminx], Hwy as [Hiny Hminy].
  apply elem_of_app in Hin.
  assert (w <= wx) by (apply Hmin, elem_of_app; auto).
  assert (w <= wy) by (apply Hmin, elem_of_app; auto).
  destruct Hin as [Hin|Hin]; [apply Hminx in Hin|apply Hminy in Hin]; lia.
Qed.

Lemma signature_truncates k xs s32 :
  k = MinHasher16 \/ k = MinHasher8 ->
  create_signature MinHasher32 hash m xs = Some s32 ->
  create_signature k hash m xs = Some ((fun v => v mod 2 ^ width k) <$> s32).
Proof.
  intros Hk Hs.
  destruct (create_signature_spec hash k m xs new_a new_b) as (s & Hs' & Hl & Hi).
  destruct (create_signature_spec hash MinHasher32 m xs new_a new_b) as (s' & Hs'' & Hl' & Hi').
  rewrite Hs in Hs''. injection Hs'' as <-. rewrite Hs'. f_equal. apply list_eq. intros i.
  rewrite list_lookup_fmap. destruct (s !! i) as [v|] eqn:Ev.
  2:{ apply lookup_ge_None in Ev. rewrite (proj2 (lookup_ge_None s32 i)) by lia. done. }
  pose proof (lookup_lt_Some _ _ _ Ev) as Hlt.
  destruct (lookup_lt_is_Some_2 s32 i) as [v' Ev']; [lia|]. rewrite Ev'. simpl. f_equal.
  specialize (Hi i v Ev). specialize (Hi' i v' Ev'). destruct xs as [|x xs].
  { subst. by destruct k. }
  destruct Hi as (a & b & w & Ha & Hb & Hw & ->), Hi' as (a' & b' & w' & Ha' & Hb' & Hw' & ->).
  rewrite Ha in Ha'. injection Ha' as <-. rewrite Hb in Hb'. injection Hb' as <-.
  assert (Haf : forall h, affine k a b h = affine MinHasher32 a b h)
    by (destruct Hk as [-> | ->]; done).
  assert (w = w') as <-.
  { eapply least_unique; [|exact Hw|exact Hw'].
    intros z. rewrite !elem_of_list_fmap. setoid_rewrite Haf. done. }
  f_equal. symmetry. apply N.mod_small.
  destruct Hw as [(u & -> & _)%elem_of_list_fmap _]. rewrite Haf.
  pose proof (affine_bound MinHasher32 a b (hash u)). simpl in *. lia.
Qed.

Lemma agreements_map (f : N -> N) (x y : list N) : length x = length y ->
  (agreements x y <= agreements (f <$> x) (f <$> y))%nat.
Proof.
  revert y. induction x as [|a x IH]; intros [|b y] Hl; simpl in *; try done.
  rewrite !agreements_cons. specialize (IH y ltac:(lia)).
  unfold fmap in IH. case_decide; case_decide; subst; try done; lia.
Qed.

Lemma narrow_similarity k xs ys :
  k = MinHasher16 \/ k = MinHasher8 -> 0 < N.of_nat n <= 2 ^ 53 ->
  exists v v', compute_similarity MinHasher32 hash m xs ys = Some v /\
    compute_similarity k hash m xs ys = Some v' /\ f64_ge v' v = true.
Proof.
  intros Hk Hn.
  destruct (signature_shape MinHasher32 xs) as (sx & Hsx & Hlx & _).
  destruct (signature_shape MinHasher32 ys) as (sy & Hsy & Hly & _).
  unfold compute_similarity. rewrite Hsx, Hsy. simpl.
  rewrite (signature_truncates k xs sx Hk Hsx), (signature_truncates k ys sy Hk Hsy). simpl.
  rewrite !similarity_sim by (rewrite ?fmap_length; congruence).
  eexists _, _. split; [done|]. split; [done|].
  set (f := fun v => v mod 2 ^ width k).
  pose proof (agreements_map f sx sy ltac:(congruence)) as Hle.
  pose proof (agreements_le (f <$> sx) (f <$> sy)) as Hle2. rewrite fmap_length in Hle2.
  unfold f64_ge.
  pose proof (sim_good sx sy ltac:(lia) ltac:(lia)) as G1.
  pose proof (sim_good (f <$> sx) (f <$> sy) ltac:(rewrite fmap_length; lia)
    ltac:(rewrite fmap_length; lia)) as G2.
  apply (FloatFacts.good_leb 53 1024 _ _ _ _ G1 G2). rewrite fmap_length.
  apply (FloatFacts.ratio_mono 53 1024 Hprec64); lia.
Qed.

Lemma agree_if_shared k xs ys sx sy i a b u :
  create_signature k hash m xs = Some sx -> create_signature k hash m ys = Some sy ->
  coef_a m !! i = Some a -> coef_b m !! i = Some b ->
  u ∈ xs -> u ∈ ys -> (forall v, v ∈ xs ++ ys -> affine k a b (hash u) <= affine k a b (hash v)) ->
  sx !! i = sy !! i /\ sx !! i = Some (affine k a b (hash u) mod 2 ^ width k).
Proof.
  intros Hsx Hsy Ha Hb Hux Huy Hmin.
  assert (Hi : (i < n)%nat).
  { apply lookup_lt_Some in Ha. by rewrite new_a in Ha. }
  destruct (signature_shape k xs) as (sx' & Hsx' & Hlx & _).
  rewrite Hsx in Hsx'. injection Hsx' as <-.
  destruct (signature_shape k ys) as (sy' & Hsy' & Hly & _).
  rewrite Hsy in Hsy'. injection Hsy' as <-.
  destruct (lookup_lt_is_Some_2 sx i) as [vx Evx]; [lia|].
  destruct (lookup_lt_is_Some_2 sy i) as [vy Evy]; [lia|].
  assert (Hx : xs ≠ []) by (intros ->; by apply elem_of_nil in Hux).
  assert (Hy : ys ≠ []) by (intros ->; by apply elem_of_nil in Huy).
  destruct (lookup_least hash k m xs sx i a b vx new_a new_b Hx Hsx Ha Hb Evx) as (wx & Hwx & ->).
  destruct (lookup_least hash k m ys sy i a b vy new_a new_b Hy Hsy Ha Hb Evy) as (wy & Hwy & ->).
  rewrite Evx, Evy.
  assert (wx = affine k a b (hash u)) as ->.
  { eapply (least_unique ((fun u => affine k a b (hash u)) <$> xs)); [done|exact Hwx|].
    split; [apply elem_of_list_fmap; eauto|].
    intros z (v & -> & Hv)%elem_of_list_fmap. apply Hmin, elem_of_app. auto. }
  assert (wy = affine k a b (hash u)) as ->.
  { eapply (least_unique ((fun u => affine k a b (hash u)) <$> ys)); [done|exact Hwy|].
    split; [apply elem_of_list_fmap; eauto|].
    intros z (v & -> & Hv)%elem_of_list_fmap. apply Hmin, elem_of_app. auto. }
  done.
Qed.

Lemma agree_iff_shared k xs ys sx sy i a b :
  full_width k -> xs ≠ [] -> ys ≠ [] ->
  create_signature k hash m xs = Some sx -> create_signature k hash m ys = Some sy ->
  coef_a m !! i = Some a -> coef_b m !! i = Some b ->
  (forall u v, u ∈ xs ++ ys -> v ∈ xs ++ ys ->
     affine k a b (hash u) = affine k a b (hash v) -> u = v) ->
  sx !! i = sy !! i <->
  exists u, u ∈ xs /\ u ∈ ys /\
    forall v, v ∈ xs ++ ys -> affine k a b (hash u) <= affine k a b (hash v).
Proof.
  intros Hk Hx Hy Hsx Hsy Ha Hb Hinj. split.
  2:{ intros (u & Hux & Huy & Hmin). by eapply agree_if_shared. }
  assert (Hi : (i < n)%nat).
  { apply lookup_lt_Some in Ha. by rewrite new_a in Ha. }
  destruct (signature_shape k xs) as (sx' & Hsx' & Hlx & _).
  rewrite Hsx in Hsx'. injection Hsx' as <-.
  destruct (signature_shape k ys) as (sy' & Hsy' & Hly & _).
  rewrite Hsy in Hsy'. injection Hsy' as <-.
  destruct (lookup_lt_is_Some_2 sx i) as [vx Evx]; [lia|].
  destruct (lookup_lt_is_Some_2 sy i) as [vy Evy]; [lia|].
  destruct (lookup_least hash k m xs sx i a b vx new_a new_b Hx Hsx Ha Hb Evx) as (wx & Hwx & ->).
  destruct (lookup_least hash k m ys sy i a b vy new_a new_b Hy Hsy Ha Hb Evy) as (wy & Hwy & ->).
  rewrite Evx, Evy. intros [= E].
  destruct Hwx as [(u & -> & Hu)%elem_of_list_fmap Hmx].
  destruct Hwy as [(v & -> & Hv)%elem_of_list_fmap Hmy].
  rewrite !affine_small in E by done.
  assert (u = v) as <- by (apply Hinj; [apply elem_of_app; auto..|done]).
  exists u. split; [done|]. split; [done|]. intros z [Hz|Hz]%elem_of_app.
  - apply Hmx, elem_of_list_fmap. eauto.
  - apply Hmy, elem_of_list_fmap. eauto.
Qed.

Lemma into_vec_create items ret : items ≠ [] -> length ret = n ->
  get_min_hashes_into_vec hash m items ret = create_signature MinHasher64V1 hash m items.
Proof.
  intros Hne Hl. unfold get_min_hashes_into_vec. rewrite decide_True by done.
  rewrite decide_True by (by destruct items).
  cbn [create_signature]. unfold create_signature_64. rewrite fmap_length.
  destruct items as [|u0 items]; [done|]. change (0 <? length (u0 :: items))%nat with true.
  cbv iota. set (hs := hash <$> u0 :: items). rewrite Hl. clear Hl.
  simpl. generalize (draws seed n). intros d.
  assert (G : forall j, mapM (fun index => a ← (d <$> seq 0 (j + n)) !! index;
      b ← (d <$> seq n n ++ []) !! index; min_by N.compare (hash_at_64 (a, b) <$> hs)) [] = Some [])
    by done.
  clear G.
  rewrite zip_with_fmap_l, zip_with_fmap_r.
  replace (zip_with (fun y1 y2 => (d y1, d y2)) (seq 0 n) (seq n n))
    with ((fun i => (d i, d (n + i)%nat)) <$> seq 0 n).
  2:{ apply list_eq. intros i. rewrite list_lookup_fmap, lookup_zip_with.
      destruct (decide (i < n)%nat).
      - rewrite !lookup_seq_lt by done. simpl. done.
      - rewrite !lookup_seq_ge by lia. done. }
  rewrite (mapM_fmap_inner (fun i => (d i, d (n + i)%nat))).
  apply mapM_ext_in. intros i Hi. apply elem_of_seq in Hi.
  rewrite !list_lookup_fmap, !lookup_seq_lt by lia. done.
Qed.
End New.
