(** Lemmas for C81. *)
From stdpp Require Import base list gmap.
From Coq Require Import NArith ZArith Lia.
From Verif Require Import Base SimHashBits SimHash SimHashIndex SpecIndex SpecSimHash BitsFacts SimHashFacts SimHashIndexFacts PropsSimHash.
From Verif Require Import Hashers Digests SpecDigests SipFacts SpecTuples TupleFacts ExpectFacts SpecSimTest ListFacts.
Local Open Scope nat_scope.

(** ** Changing one token *)
Lemma bit_count_insert b j (hs : list N) i old new : hs !! i = Some old ->
  bit_count b j (<[i := new]> hs) + bit_count b j [old] = bit_count b j hs + bit_count b j [new].
Proof.
  intros H. rewrite (insert_take_drop hs i new) by (by eapply lookup_lt_Some).
  pose proof (take_drop_middle hs i old H) as E. rewrite <- E at 3.
  change (old :: drop (S i) hs) with ([old] ++ drop (S i) hs). change (new :: drop (S i) hs) with ([new] ++ drop (S i) hs).
  rewrite !bit_count_app. lia.
Qed.

(** Bit [j] of the signature of hashes [hs] tips over if the hash [old] loses it. *)
Definition tips (hs : list N) (old : N) (j : nat) : bool :=
  let n1 := bit_count true j hs in let n0 := bit_count false j hs in
  if bit old j then ((n0 <=? n1) && (n1 <? n0 + 2)) else ((n1 <? n0) && (n0 <=? n1 + 2)).
Definition tip_mask (hs : list N) (old : N) : N := default 0%N (collect_bits 64 64 (tips hs old)).

Lemma tip_mask_bit hs old j : bit (tip_mask hs old) j = bool_decide (j < 64) && tips hs old j.
Proof. unfold tip_mask. destruct (collect_bits_ok 64 64 (tips hs old) ltac:(lia)) as (r & -> & Hr). apply Hr. Qed.

Lemma change_distance {U} (hash : U -> N) (doc : list U) i u v : doc !! i = Some u ->
  exists x y, create_signature 64 64 hash doc = Some x /\ create_signature 64 64 hash (<[i := v]> doc) = Some y /\
    (x < 2 ^ N.of_nat 64)%N /\ (y < 2 ^ N.of_nat 64)%N /\
    hamming 64 x y = count_ones (N.land (N.lxor (hash u) (hash v)) (tip_mask (hash <$> doc) (hash u))).
Proof.
  intros Hu. destruct (create_signature_spec 64 64 hash doc ltac:(lia)) as (x & Ex & Bx & Hx).
  destruct (create_signature_spec 64 64 hash (<[i := v]> doc) ltac:(lia)) as (y & Ey & By & Hy).
  exists x, y. split; [done|]. split; [done|]. split; [done|]. split; [done|].
  rewrite (count_ones_bits 64).
  2: { apply bound_of_bits. intros j Hj. rewrite bit_land, tip_mask_bit, bool_decide_eq_false_2 by lia. by rewrite andb_false_r. }
  unfold hamming. f_equal. apply filter_ext_length. intros j Hj. apply elem_of_seq in Hj.
  rewrite bit_land, bit_lxor, tip_mask_bit, bool_decide_eq_true_2 by lia. cbn [andb].
  assert (Hh : (hash <$> doc) !! i = Some (hash u)) by (by rewrite list_lookup_fmap, Hu).
  rewrite list_fmap_insert in Hy.
  pose proof (bit_count_insert true j _ i _ (hash v) Hh) as T. pose proof (bit_count_insert false j _ i _ (hash v) Hh) as F.
  rewrite !bit_count_one in T, F. specialize (Hx j). specialize (Hy j). unfold tips.
  set (n1 := bit_count true j (hash <$> doc)) in *. set (n0 := bit_count false j (hash <$> doc)) in *.
  set (m1 := bit_count true j (<[i := hash v]> (hash <$> doc))) in *. set (m0 := bit_count false j (<[i := hash v]> (hash <$> doc))) in *.
  clearbody n1 n0 m1 m0.
  assert (Ex' : bit x j = (n1 <? n0)).
  { apply eq_true_iff_eq. rewrite Hx, Nat.ltb_lt. lia. }
  assert (Ey' : bit y j = (m1 <? m0)).
  { apply eq_true_iff_eq. rewrite Hy, Nat.ltb_lt. lia. }
  rewrite Ex', Ey'. clear Ex' Ey' Hx Hy.
  destruct (bit (hash u) j), (bit (hash v) j); cbn [xorb andb];
    repeat first [rewrite decide_True in T by done | rewrite decide_False in T by done];
    repeat first [rewrite decide_True in F by done | rewrite decide_False in F by done].
  - assert (m1 = n1) as -> by lia. assert (m0 = n0) as -> by lia. done.
  - destruct (Nat.ltb_spec n1 n0), (Nat.ltb_spec m1 m0), (Nat.leb_spec n0 n1), (Nat.ltb_spec n1 (n0 + 2)); cbn [andb]; split; intros; (done || (exfalso; lia)).
  - destruct (Nat.ltb_spec n1 n0), (Nat.ltb_spec m1 m0), (Nat.leb_spec n0 (n1 + 2)); cbn [andb]; split; intros; (done || (exfalso; lia)).
  - assert (m1 = n1) as -> by lia. assert (m0 = n0) as -> by lia. done.
Qed.

(** ** The hashes of the numbers below 1000 *)
Definition hash_table : list N := Eval vm_compute in int_hash <$> (N.of_nat <$> seq 1 999).
Lemma hash_table_ok : int_hash <$> (N.of_nat <$> seq 1 999) = hash_table.
Proof. vm_compute. reflexivity. Qed.
Lemma document_hashes : int_hash <$> document = take 20 hash_table.
Proof. rewrite <- hash_table_ok, <- !fmap_take. done. Qed.

(** The distance of the copy with a token of hash [h] at place [i]. *)
Definition masks : list (N * N) := Eval vm_compute in (fun h => (h, tip_mask (take 20 hash_table) h)) <$> take 20 hash_table.
Lemma masks_ok : (fun h => (h, tip_mask (take 20 hash_table) h)) <$> take 20 hash_table = masks.
Proof. vm_compute. reflexivity. Qed.
Definition far_hash (p : N * N) (h : N) : bool := 6 <=? count_ones (N.land (N.lxor p.1 h) p.2).

Lemma distance_mask i v : i < 20 -> exists p y, masks !! i = Some p /\
  signature (changed (i, v)) = Some y /\ (y < 2 ^ N.of_nat 64)%N /\
  sample_distance (i, v) = hamming 64 (default 0%N (signature document)) y /\
  sample_distance (i, v) = count_ones (N.land (N.lxor p.1 (int_hash v)) p.2).
Proof.
  intros Hi. destruct (lookup_lt_is_Some_2 document i) as [u Hu]; [by cbn|].
  destruct (change_distance int_hash document i u v Hu) as (x & y & Ex & Ey & _ & By & E).
  rewrite document_hashes in E. exists (int_hash u, tip_mask (take 20 hash_table) (int_hash u)), y.
  split. { rewrite <- masks_ok, list_lookup_fmap, <- document_hashes, list_lookup_fmap, Hu. done. }
  unfold sample_distance, signature, changed. cbn [fst snd]. rewrite Ex, Ey.
  split; [reflexivity|]. split; [exact By|]. split; [reflexivity|exact E].
Qed.

Definition far (s : nat * N) : bool := 6 <=? sample_distance s.

Lemma far_count : length (List.filter far all_samples) = N.to_nat 6917.
Proof.
  rewrite length_filter. unfold all_samples. rewrite total_bind.
  rewrite (total_ext _ (fun i => total (fun h => if far_hash (default (0, 0)%N (masks !! i)) h then 1 else 0) hash_table)).
  - vm_compute. reflexivity.
  - intros i Hi%elem_of_seq. rewrite <- hash_table_ok. rewrite !total_fmap. apply total_ext. intros v _.
    destruct (distance_mask i (N.of_nat v) ltac:(lia)) as (p & y & Ep & _ & _ & _ & E). unfold far, far_hash. by rewrite Ep, E.
Qed.

Lemma samples_elem s : s ∈ all_samples <-> sample_ok s.
Proof.
  unfold all_samples, sample_ok. rewrite elem_of_list_bind. destruct s as [i v]. cbn [fst snd]. split.
  - intros (j & (w & [= -> ->] & Hw)%elem_of_list_fmap & Hj%elem_of_seq). apply elem_of_list_fmap in Hw as (k & -> & Hk%elem_of_seq). lia.
  - intros [Hi Hv]. exists i. split; [|apply elem_of_seq; lia]. apply elem_of_list_fmap. exists v. split; [done|].
    apply elem_of_list_fmap. exists (N.to_nat v). split; [lia|apply elem_of_seq; lia].
Qed.
Lemma samples_count : length all_samples = N.to_nat 19980.
Proof. vm_compute. reflexivity. Qed.

(** ** The run *)
Lemma stored_imap (sigs : list N) id s :
  sspec_map (imap (fun i sig => SInsert (N.of_nat i) sig) sigs) !! id = Some s <-> exists i, id = N.of_nat i /\ sigs !! i = Some s.
Proof.
  unfold sspec_map. revert id s. induction sigs as [|x sigs IH] using rev_ind; intros id s.
  - cbn. rewrite lookup_empty. split; [done|]. by intros (i & _ & H).
  - rewrite imap_app, foldl_app. cbn [imap foldl sspec_step]. rewrite Nat.add_0_r.
    destruct (decide (id = N.of_nat (length sigs))) as [->|Hn].
    + rewrite lookup_insert. split.
      * intros [= ->]. exists (length sigs). split; [done|]. by rewrite lookup_app_r, Nat.sub_diag by lia.
      * intros (i & Ei & Hi). apply Nat2N.inj in Ei as <-. by rewrite lookup_app_r, Nat.sub_diag in Hi by lia.
    + rewrite lookup_insert_ne by done. rewrite IH. split; intros (i & -> & Hi); exists i; (split; [done|]).
      * by apply lookup_app_l_Some.
      * apply lookup_app_Some in Hi as [H|[Hl H]]; [done|]. apply list_lookup_singleton_Some in H as [H _]. exfalso. apply Hn. f_equal. lia.
Qed.

Section Run.
Context (W nb d : nat) (HW : 1 < W) (Hd : d <= nb <= W).
Context (sg : list N -> option N) (dist : nat * N -> nat) (x : N).
Context (Ex : sg document = Some x) (Bx : (x < 2 ^ N.of_nat W)%N).
Context (Hsg : forall s, sample_ok s -> exists y, sg (changed s) = Some y /\ (y < 2 ^ N.of_nat W)%N /\ dist s = hamming W x y).
Definition farb (s : nat * N) : bool := d <=? dist s.

Lemma run_spec (order : gset N -> list N) samples : is_order order -> samples <> [] -> Forall sample_ok samples ->
  (m ← sindex_new W nb d;
   sigs ← mapM (fun s => sg (changed s)) samples;
   let pairs := imap (fun i sig => (N.of_nat i, sig)) sigs in
   let m := foldl (fun m p => sinsert p.1 p.2 m) m pairs in
   target ← sg document;
   expected ← min_by (fun x y => Nat.compare x.2 y.2) ((fun p => (p.1, hamming_distance p.2 target)) <$> pairs);
   found ← squery_one order m target;
   found ← found;
   Ok (expected.2 =? found.2)) = if forallb farb samples then None else Some true.
Proof.
  intros Ho Hne Hok.
  assert (HS : exists sigs, mapM (fun s => sg (changed s)) samples = Some sigs /\
    Forall2 (fun s y => (y < 2 ^ N.of_nat W)%N /\ dist s = hamming W x y) samples sigs).
  { clear Hne. induction Hok as [|s samples Hs _ (sigs & E1 & E2)]; [by exists []|].
    destruct (Hsg s Hs) as (y & Ey & By & Ed). exists (y :: sigs). split.
    - cbn [mapM]. rewrite Ey. cbn [mbind option_bind]. by rewrite E1.
    - by constructor. }
  destruct HS as (sigs & -> & HS). cbn [mbind option_bind].
  pose (ops := imap (fun i sig => SInsert (N.of_nat i) sig) sigs).
  assert (Hfit : Forall (sop_fits W) ops).
  { apply Forall_forall. intros o Ho'. apply elem_of_lookup_imap in Ho' as (i & y & -> & Hy). cbn.
    destruct (Forall2_lookup_r _ _ _ _ _ HS Hy) as (s & _ & B & _). done. }
  destruct (C30_query_one W nb d ops x order HW Hd Hfit Bx Ho) as (m & r & Em & Er & Hr).
  unfold safter in Em. destruct (sindex_new W nb d) as [m0|]; [|done]. cbn [mbind option_bind] in *. injection Em as Em.
  assert (Em' : foldl (fun m p => sinsert p.1 p.2 m) m0 (imap (fun i sig => (N.of_nat i, sig)) sigs) = m).
  { rewrite <- Em. subst ops. clear.
    revert m0. induction sigs as [|y sigs IH] using rev_ind; intros m0; [done|].
    rewrite !imap_app, !foldl_app, IH. done. }
  cbv zeta. rewrite Em', Ex. cbn [mbind option_bind].
  set (ds := (fun p => (p.1, hamming_distance p.2 x)) <$> imap (fun i sig => (N.of_nat i, sig)) sigs).
  assert (Hds : forall k, (exists e, e ∈ ds /\ e.2 = k) <-> exists s, s ∈ samples /\ dist s = k).
  { intros k. subst ds. split.
    - intros (e & (p & -> & Hp)%elem_of_list_fmap & <-). apply elem_of_lookup_imap in Hp as (i & y & -> & Hy). cbn [fst snd].
      destruct (Forall2_lookup_r _ _ _ _ _ HS Hy) as (s & Hs & By & Ed). exists s. split; [by eapply elem_of_list_lookup_2|].
      rewrite Ed, hamming_sym. symmetry. by apply hamming_distance_spec.
    - intros (s & Hs & <-). apply elem_of_list_lookup in Hs as [i Hs]. destruct (Forall2_lookup_l _ _ _ _ _ HS Hs) as (y & Hy & By & Ed).
      exists (N.of_nat i, hamming_distance y x). cbn [snd]. split.
      + apply elem_of_list_fmap. exists (N.of_nat i, y). split; [done|]. apply elem_of_lookup_imap. by exists i, y.
      + rewrite Ed, hamming_sym. by apply hamming_distance_spec. }
  assert (Hst : forall k, (exists id y, sspec_map ops !! id = Some y /\ hamming W x y = k) <-> exists s, s ∈ samples /\ dist s = k).
  { intros k. split.
    - intros (id & y & Hy & <-). apply stored_imap in Hy as (i & -> & Hy). destruct (Forall2_lookup_r _ _ _ _ _ HS Hy) as (s & Hs & By & Ed).
      exists s. split; [by eapply elem_of_list_lookup_2|done].
    - intros (s & Hs & <-). apply elem_of_list_lookup in Hs as [i Hs]. destruct (Forall2_lookup_l _ _ _ _ _ HS Hs) as (y & Hy & By & Ed).
      exists (N.of_nat i), y. split; [|done]. apply stored_imap. by exists i. }
  pose proof (min_by_spec (fun p : N * nat => p.2) ds) as Hmin.
  destruct (min_by (fun x y => Nat.compare x.2 y.2) ds) as [e|] eqn:Ee.
  2: { exfalso. destruct samples as [|s samples]; [done|]. destruct (proj2 (Hds (dist s))) as (e & He & _).
       { exists s. split; [by left|done]. }
       rewrite Hmin in He. by apply elem_of_nil in He. }
  destruct Hmin as [He Hmin]. cbn [mbind option_bind]. rewrite Er. cbn [mbind option_bind].
  destruct (proj1 (Hds e.2)) as (s & Hs & Es); [by exists e|].
  destruct r as [[id k]|]; cbn [mbind option_bind].
  - destruct Hr as (y & Hy & Ek & Hk & Hleast).
    destruct (proj1 (Hst k)) as (t & Ht & Et); [by exists id, y|].
    assert (e.2 = k) as E.
    { apply Nat.le_antisymm.
      - destruct (proj2 (Hds k)) as (e' & He' & <-); [by exists t|]. by apply Hmin.
      - destruct (proj2 (Hst e.2)) as (id' & y' & Hy' & <-); [by exists s|]. by eapply Hleast. }
    cbn [snd]. rewrite E, Nat.eqb_refl.
    destruct (forallb farb samples) eqn:Ef; [|done]. exfalso.
    rewrite forallb_forall in Ef. specialize (Ef t (proj1 (elem_of_list_In _ _) Ht)). unfold farb in Ef. apply Nat.leb_le in Ef. lia.
  - destruct (forallb farb samples) eqn:Ef; [done|]. exfalso. apply not_true_iff_false in Ef. apply Ef.
    apply forallb_forall. intros t Ht%elem_of_list_In. unfold farb. apply Nat.leb_le.
    destruct (proj2 (Hst (dist t))) as (id' & y' & Hy' & <-); [by exists t|]. by eapply Hr.
Qed.

End Run.

Lemma signature_document : exists x, signature document = Some x /\ (x < 2 ^ N.of_nat 64)%N.
Proof. destruct (create_signature_spec 64 64 int_hash document ltac:(lia)) as (x & Ex & Bx & _). exists x. split; [exact Ex|exact Bx]. Qed.

Local Typeclasses Opaque index_test.
Local Opaque signature.
Lemma index_test_spec order samples : is_order order -> samples <> [] -> Forall sample_ok samples ->
  index_test order samples = if forallb far samples then None else Some true.
Proof.
  destruct signature_document as (x & Ex & Bx). unfold index_test.
  apply (run_spec 64 8 6 ltac:(lia) ltac:(lia) signature sample_distance x Ex Bx).
  intros [i v] [Hi _]. destruct (distance_mask i v Hi) as (p & y & _ & Ey & By & Ed & _). exists y.
  split; [exact Ey|]. split; [exact By|]. rewrite Ed, Ex. reflexivity.
Qed.

Local Opaque index_test.
Lemma index_test_count order n : is_order order ->
  length (filter (fun l => index_test order l = None) (tuples all_samples (S n))) = N.to_nat 6917 ^ S n.
Proof.
  intros Ho. rewrite <- far_count. rewrite <- (all_hits all_samples far (S n)). rewrite <- length_filter.
  assert (E : forall l, (forall y, y ∈ l -> y ∈ tuples all_samples (S n)) ->
    length (filter (fun l => index_test order l = None) l) = length (List.filter (forallb far) l)).
  { induction l as [|y l IH]; intros Hl; [done|]. cbn [List.filter]. rewrite filter_cons.
    destruct (tuples_elem all_samples (S n) y (Hl y ltac:(by left))) as [Hy1 Hy2].
    assert (Hsp : index_test order y = if forallb far y then None else Some true).
    { apply index_test_spec; [done|by destruct y|]. eapply Forall_impl; [exact Hy2|]. intros s. apply samples_elem. }
    specialize (IH ltac:(intros; apply Hl; by right)).
    destruct (forallb far y) eqn:Ef.
    - rewrite decide_True by done. cbn [length]. by rewrite IH.
    - rewrite decide_False by (rewrite Hsp; done). exact IH. }
  by apply E.
Qed.

Lemma of_nat_pow a n : N.of_nat (N.to_nat a ^ n) = (a ^ N.of_nat n)%N.
Proof. rewrite <- (N2Nat.id a) at 2. induction n as [|n IH]; [done|]. rewrite Nat2N.inj_succ, N.pow_succ_r', <- IH. cbn [Nat.pow]. by rewrite Nat2N.inj_mul. Qed.

Lemma outcome_spec {A} (dist : A -> nat) (l : list A) (r : option bool) :
  r = (if forallb (fun s => 6 <=? dist s) l then None else Some true) ->
  (r = Some true <-> exists s, s ∈ l /\ dist s < 6) /\ (r = None <-> forall s, s ∈ l -> 6 <= dist s) /\ r <> Some false.
Proof.
  intros ->.
  assert (E : forallb (fun s => 6 <=? dist s) l = true <-> forall s, s ∈ l -> 6 <= dist s).
  { rewrite forallb_forall. split; intros H s Hs.
    - apply elem_of_list_In in Hs. apply H in Hs. by apply Nat.leb_le in Hs.
    - apply elem_of_list_In in Hs. apply H in Hs. by apply Nat.leb_le. }
  destruct (forallb (fun s => 6 <=? dist s) l) eqn:Ef.
  - pose proof (proj1 E eq_refl) as H. split; [|done]. split; [done|].
    intros (s & Hs & Hlt). specialize (H s Hs). lia.
  - split; [|split; [|done]].
    + split; [intros _|done].
      assert (Hx : existsb (fun s => negb (6 <=? dist s)) l = true).
      { clear -Ef. induction l as [|s l IH]; [done|]. cbn [forallb existsb] in *. destruct (6 <=? dist s); cbn [negb andb orb] in *; [by apply IH|done]. }
      apply existsb_exists in Hx as (s & Hs%elem_of_list_In & Hf). exists s. split; [exact Hs|].
      apply negb_true_iff in Hf. by apply Nat.leb_gt in Hf.
    + split; [done|]. intros H. apply E in H. done.
Qed.
