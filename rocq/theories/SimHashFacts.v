(** Facts about simhash signatures and centroids. *)
From stdpp Require Import base list.
From Coq Require Import NArith ZArith Lia.
From Verif Require Import Base Float SimHashBits SimHash SpecSimHash BitsFacts.

Lemma nth_replicate {A} (x : A) n i : nth i (replicate n x) x = x.
Proof. revert i. induction n as [|n IH]; intros [|i]; cbn; auto. Qed.

(** ** Collecting bits *)
Lemma collect_bits_ok W L test : L <= W ->
  exists r, collect_bits W L test = Some r /\ forall i, bit r i = bool_decide (i < L) && test i.
Proof.
  intros HL. unfold collect_bits. induction L as [|L IH].
  - exists 0%N. split; [done|]. intros i. by rewrite bit_0.
  - destruct IH as (r & E & Hr); [lia|]. rewrite seq_S, foldl_app, E. cbn [foldl mbind option_bind].
    rewrite Nat.add_0_l. destruct (test L) eqn:Et.
    + destruct (shl_one W L ltac:(lia)) as (b & -> & Hb). cbn [mbind option_bind].
      eexists. split; [reflexivity|]. intros i. rewrite bit_lor, Hr, Hb.
      destruct (decide (i = L)) as [->|Hne].
      * rewrite Et. repeat case_bool_decide; try lia; done.
      * rewrite (bool_decide_false (i = L)) by done. rewrite orb_false_r. f_equal.
        apply bool_decide_ext. lia.
    + eexists. split; [reflexivity|]. intros i. rewrite Hr.
      destruct (decide (i = L)) as [->|Hne]; [by rewrite Et, !andb_false_r|]. f_equal.
      apply bool_decide_ext. lia.
Qed.

Lemma collect_bits_none W L test i : W <= i < L -> test i = true -> collect_bits W L test = None.
Proof.
  intros Hi Ht. unfold collect_bits.
  assert (Hnone : forall l, foldl (fun (acc : option N) i => r ← acc;
      if test i then b ← shl W 1 i; Some (N.lor r b) else Some r) None l = None).
  { intros l. by induction l. }
  replace L with (i + S (L - S i)) by lia. rewrite seq_app, foldl_app. cbn [seq foldl].
  destruct (foldl _ _ (seq 0 i)); [|apply Hnone]. cbn [mbind option_bind].
  rewrite Nat.add_0_l, Ht. unfold shl. rewrite (proj2 (Nat.ltb_ge i W)) by lia. apply Hnone.
Qed.

Lemma collect_bits_bound W L test r : L <= W -> collect_bits W L test = Some r -> (r < 2 ^ N.of_nat W)%N.
Proof.
  intros HL E. destruct (collect_bits_ok W L test HL) as (r' & E' & Hr). rewrite E in E'.
  injection E' as ->. apply bound_of_bits. intros i Hi. rewrite Hr.
  by rewrite bool_decide_false by lia.
Qed.

(** ** Counters of a signature *)
Lemma land_1_bit h : (N.land h 1 =? 0)%N = negb (bit h 0).
Proof. rewrite N.land_comm. apply land_one_zero. intros i. apply bit_1. Qed.

Lemma bit_shiftr_1 h i : bit (N.shiftr h 1) i = bit h (S i).
Proof. change 1%N with (N.of_nat 1). rewrite bit_shiftr. f_equal. lia. Qed.

Lemma add_hash_length h cs : length (add_hash h cs) = length cs.
Proof. revert h. induction cs as [|c cs IH]; intros h; [done|]. cbn. by rewrite IH. Qed.

Lemma add_hash_nth h cs i : i < length cs ->
  nth i (add_hash h cs) 0%Z = (nth i cs 0 + if bit h i then -1 else 1)%Z.
Proof.
  revert h i. induction cs as [|c cs IH]; intros h i Hi; cbn in Hi; [lia|].
  cbn [add_hash]. destruct i as [|i]; cbn [nth].
  - rewrite land_1_bit. destruct (bit h 0); cbn [negb]; lia.
  - rewrite IH by lia. by rewrite bit_shiftr_1.
Qed.

Lemma bit_count_app b i l1 l2 : bit_count b i (l1 ++ l2) = bit_count b i l1 + bit_count b i l2.
Proof. unfold bit_count. by rewrite filter_app, app_length. Qed.

Lemma bit_count_one b i h : bit_count b i [h] = if decide (bit h i = b) then 1 else 0.
Proof. unfold bit_count. rewrite filter_cons, filter_nil. by case_decide. Qed.

Lemma counts_spec {U} L (hash : U -> N) (items : list U) :
  let counts := foldl (fun cs u => add_hash (hash u) cs) (replicate L 0%Z) items in
  length counts = L /\
  forall i, i < L -> nth i counts 0%Z =
    (Z.of_nat (bit_count false i (hash <$> items)) - Z.of_nat (bit_count true i (hash <$> items)))%Z.
Proof.
  cbv zeta. induction items as [|u items IH] using rev_ind.
  - split; [apply replicate_length|]. intros i Hi. etransitivity; [apply nth_replicate|done].
  - rewrite foldl_app. cbn [foldl]. destruct IH as [IHl IH]. split; [by rewrite add_hash_length|].
    intros i Hi. rewrite add_hash_nth by lia. rewrite IH by done.
    rewrite fmap_app, !bit_count_app. cbn [fmap list_fmap]. rewrite !bit_count_one.
    destruct (bit (hash u) i); repeat case_decide; try done; lia.
Qed.

Lemma create_signature_spec {U} W L (hash : U -> N) (items : list U) : L <= W ->
  exists r, create_signature W L hash items = Some r /\ (r < 2 ^ N.of_nat W)%N /\
    forall i, bit r i = true <->
      i < L /\ bit_count true i (hash <$> items) < bit_count false i (hash <$> items).
Proof.
  intros HL. unfold create_signature. set (counts := foldl _ _ _).
  destruct (collect_bits_ok W L (fun i => (0 <? nth i counts 0%Z)%Z) HL) as (r & E & Hr).
  exists r. split; [done|]. split; [by eapply collect_bits_bound|].
  intros i. rewrite Hr, andb_true_iff, bool_decide_eq_true, Z.ltb_lt.
  destruct (counts_spec L hash items) as [_ Hc]. fold counts in Hc.
  split; intros [Hi Hlt]; (split; [done|]); rewrite Hc in * by done; lia.
Qed.

Lemma create_signature_wide {U} W L (hash : U -> N) (items : list U) : W < L -> items ≠ [] ->
  (forall u, (hash u < 2 ^ N.of_nat W)%N) -> create_signature W L hash items = None.
Proof.
  intros HL Hne Hh. unfold create_signature. set (counts := foldl _ _ _).
  apply (collect_bits_none _ _ _ W); [lia|].
  destruct (counts_spec L hash items) as [_ Hc]. fold counts in Hc. rewrite Hc by done.
  apply Z.ltb_lt.
  assert (Hb : forall h, h ∈ hash <$> items -> bit h W = false).
  { intros h (u & -> & _)%elem_of_list_fmap. by apply (bit_high _ W). }
  assert (bit_count true W (hash <$> items) = 0).
  { unfold bit_count. clear - Hb. induction (hash <$> items) as [|h l IH]; [done|].
    rewrite filter_cons, decide_False.
    - apply IH. intros h' Hh'. apply Hb. by right.
    - rewrite Hb by (by left). done. }
  assert (bit_count false W (hash <$> items) = length items).
  { rewrite <- (fmap_length hash items). unfold bit_count. clear - Hb.
    induction (hash <$> items) as [|h l IH]; [done|].
    rewrite filter_cons, decide_True by (apply Hb; by left).
    cbn [length]. f_equal. apply IH. intros h' Hh'. apply Hb. by right. }
  destruct items; [done|]. cbn [length] in *. lia.
Qed.

Lemma bit_count_perm b i l1 l2 : l1 ≡ₚ l2 -> bit_count b i l1 = bit_count b i l2.
Proof. intros Hp. unfold bit_count. by rewrite Hp. Qed.

Lemma create_signature_ext {U V} W L (h1 : U -> N) (h2 : V -> N) items1 items2 : L <= W ->
  (forall i, i < L -> bit_count true i (h1 <$> items1) < bit_count false i (h1 <$> items1) <->
             bit_count true i (h2 <$> items2) < bit_count false i (h2 <$> items2)) ->
  create_signature W L h1 items1 = create_signature W L h2 items2.
Proof.
  intros HL He.
  destruct (create_signature_spec W L h1 items1 HL) as (r1 & -> & _ & H1).
  destruct (create_signature_spec W L h2 items2 HL) as (r2 & -> & _ & H2).
  f_equal. apply bits_eq. intros i. apply eq_true_iff_eq. rewrite H1, H2.
  split; intros [Hi Hlt]; split; try done; by apply He.
Qed.

Lemma create_signature_perm {U} W L (hash : U -> N) items1 items2 : L <= W -> items1 ≡ₚ items2 ->
  create_signature W L hash items1 = create_signature W L hash items2.
Proof.
  intros HL Hp. apply create_signature_ext; [done|]. intros i _.
  by rewrite !(bit_count_perm _ i (hash <$> items1) (hash <$> items2)) by (by rewrite Hp).
Qed.

Lemma bit_count_repeat b i n hs : bit_count b i (mjoin (replicate n hs)) = n * bit_count b i hs.
Proof. induction n as [|n IH]; [done|].
  transitivity (bit_count b i (hs ++ mjoin (replicate n hs))); [done|].
  rewrite bit_count_app, IH. done.
Qed.

Lemma fmap_repeat {U} (hash : U -> N) n items :
  hash <$> mjoin (replicate n items) = mjoin (replicate n (hash <$> items)).
Proof. induction n as [|n IH]; [done|].
  transitivity (hash <$> items ++ mjoin (replicate n items)); [done|].
  rewrite fmap_app, IH. done.
Qed.

Lemma create_signature_repeat {U} W L (hash : U -> N) n items : L <= W ->
  create_signature W L hash (mjoin (replicate (S n) items)) = create_signature W L hash items.
Proof.
  intros HL. apply create_signature_ext; [done|]. intros i _.
  rewrite fmap_repeat, !bit_count_repeat. nia.
Qed.

(** ** Centroid *)
Lemma count_bits_ok W s cs : length cs <= W ->
  count_bits W s cs = Some (imap (fun i c => if bit s i then c + 1 else c) cs).
Proof.
  intros HL. unfold count_bits.
  assert (G : forall k cs, k + length cs <= W ->
    mapM (fun p => b ← shr W s p.1; Some (if (N.land b 1 =? 1)%N then p.2 + 1 else p.2))
      (imap (fun i c => (k + i, c)) cs) =
    Some (imap (fun i c => if bit s (k + i) then c + 1 else c) cs)).
  { clear. intros k cs. revert k. induction cs as [|c cs IH]; intros k Hk; [done|]. cbn [length] in Hk.
    cbn [imap mapM]. rewrite Nat.add_0_r.
    destruct (shr_bits W s k ltac:(lia)) as (b & E & Hb). cbn [fst snd]. rewrite E.
    cbn [mbind option_bind].
    replace (imap ((fun i c => (k + i, c)) ∘ S) cs) with (imap (fun i c => (S k + i, c)) cs).
    2:{ apply imap_ext. intros i x _. cbn. f_equal. lia. }
    rewrite IH by lia. cbn [mbind option_bind]. unfold mret, option_ret. f_equal. f_equal.
    - assert (Eb : (N.land b 1 =? 1)%N = bit s k).
      { pose proof (land_1_bit b) as El. rewrite Hb in El. cbn in El.
        assert (Hcase : N.land b 1 = 0%N \/ N.land b 1 = 1%N).
        { pose proof (N.land_ones b 1) as Eo. change (N.ones 1) with 1%N in Eo.
          rewrite Eo. change (2 ^ 1)%N with 2%N. pose proof (N.mod_lt b 2 ltac:(lia)) as Hlt.
          revert Hlt. generalize (b mod 2)%N. intros v Hlt. lia. }
        destruct Hcase as [Hc|Hc]; rewrite Hc in *; cbn in *; destruct (bit s k); done. }
      by rewrite Eb.
    - apply imap_ext. intros i x _. cbn. by replace (k + S i) with (S (k + i)) by lia. }
  exact (G 0 cs HL).
Qed.

Lemma centroid_counts W L sigs : L <= W ->
  exists cs, foldl (fun (acc : option (list nat)) s => cs ← acc; count_bits W s cs)
      (Some (replicate L 0)) sigs = Some cs /\
    length cs = L /\ forall i, i < L -> nth i cs 0 = bit_count true i sigs.
Proof.
  intros HL. induction sigs as [|s sigs IH] using rev_ind.
  - eexists. split; [reflexivity|]. split; [apply replicate_length|]. intros i Hi. etransitivity; [apply nth_replicate|done].
  - destruct IH as (cs & E & Hlen & Hc). rewrite foldl_app, E. cbn [foldl mbind option_bind].
    rewrite count_bits_ok by lia. eexists. split; [reflexivity|].
    rewrite imap_length. split; [done|]. intros i Hi.
    rewrite bit_count_app, bit_count_one, <- Hc by done.
    rewrite !nth_lookup, list_lookup_imap.
    destruct (lookup_lt_is_Some_2 cs i ltac:(lia)) as [c Ec]. rewrite Ec. cbn.
    destruct (bit s i); case_decide; try done; lia.
Qed.

Lemma create_centroid_spec W L sigs : L <= W ->
  exists r, create_centroid W L sigs = Some r /\ (r < 2 ^ N.of_nat W)%N /\
    forall i, bit r i = true <-> i < L /\ length sigs < 2 * bit_count true i sigs.
Proof.
  intros HL. unfold create_centroid.
  destruct (centroid_counts W L sigs HL) as (cs & -> & Hlen & Hc). cbn [mbind option_bind].
  destruct (collect_bits_ok W L (fun i => length sigs / 2 <? nth i cs 0) HL) as (r & E & Hr).
  exists r. split; [done|]. split; [by eapply collect_bits_bound|].
  intros i. rewrite Hr, andb_true_iff, bool_decide_eq_true, Nat.ltb_lt.
  pose proof (Nat.div_mod (length sigs) 2 ltac:(lia)).
  pose proof (Nat.mod_upper_bound (length sigs) 2 ltac:(lia)).
  split; intros [Hi Hlt]; (split; [done|]); rewrite Hc in * by done; lia.
Qed.

Lemma create_centroid_wide W L sigs : W < L -> sigs ≠ [] -> create_centroid W L sigs = None.
Proof.
  intros HL Hne. unfold create_centroid.
  assert (Hnone : forall l, foldl (fun (acc : option (list nat)) s => cs ← acc; count_bits W s cs) None l = None).
  { intros l. by induction l. }
  destruct sigs as [|s sigs]; [done|]. cbn [foldl mbind option_bind].
  assert (E : count_bits W s (replicate L 0) = None).
  { unfold count_bits.
    destruct (mapM _ _) as [l|] eqn:E; [|done]. exfalso.
    apply mapM_Some in E.
    assert (El : imap pair (replicate L 0) !! W = Some (W, 0)).
    { rewrite list_lookup_imap, lookup_replicate_2 by done. done. }
    destruct (Forall2_lookup_l _ _ _ _ _ E El) as (y & _ & Ey). cbn in Ey.
    unfold shr in Ey. rewrite (proj2 (Nat.ltb_ge W W)) in Ey by lia. done. }
  rewrite E. rewrite Hnone. done.
Qed.

Lemma bit_count_total i sigs : bit_count true i sigs + bit_count false i sigs = length sigs.
Proof.
  unfold bit_count. induction sigs as [|s l IH]; [done|]. rewrite !filter_cons.
  destruct (bit s i); cbn; repeat case_decide; try done; cbn; lia.
Qed.

Lemma total_distance_bits W c sigs :
  total_distance W c sigs = sum_list ((fun i => bit_count (negb (bit c i)) i sigs) <$> seq 0 W).
Proof.
  unfold total_distance, hamming. induction sigs as [|s sigs IH].
  - cbn. induction (seq 0 W) as [|i l IH]; [done|]. cbn. exact IH.
  - cbn [fmap list_fmap sum_list]. rewrite IH. clear IH.
    induction (seq 0 W) as [|i l IH]; [done|]. rewrite filter_cons. cbn [fmap list_fmap sum_list].
    rewrite (bit_count_app _ _ [s] sigs : bit_count _ i (s :: sigs) = _), bit_count_one.
    destruct (bit c i), (bit s i); cbn [negb]; repeat case_decide; try done; cbn [length]; unfold Datatypes.id in *; lia.
Qed.

Lemma create_centroid_optimal W L sigs r c : L <= W -> create_centroid W L sigs = Some r ->
  total_distance L r sigs <= total_distance L c sigs.
Proof.
  intros HL E. destruct (create_centroid_spec W L sigs HL) as (r' & E' & _ & Hr).
  rewrite E in E'. injection E' as <-. rewrite !total_distance_bits.
  assert (Hle : forall i, i ∈ seq 0 L ->
    bit_count (negb (bit r i)) i sigs <= bit_count (negb (bit c i)) i sigs).
  { intros i Hi%elem_of_seq. specialize (Hr i). pose proof (bit_count_total i sigs).
    destruct (bit r i) eqn:Er, (bit c i); cbn [negb]; lia. }
  induction (seq 0 L) as [|i l IH]; [done|]. cbn [fmap list_fmap sum_list].
  assert (bit_count (negb (bit r i)) i sigs <= bit_count (negb (bit c i)) i sigs) by (apply Hle; by left).
  assert (sum_list ((fun i => bit_count (negb (bit r i)) i sigs) <$> l) <=
          sum_list ((fun i => bit_count (negb (bit c i)) i sigs) <$> l)) by (apply IH; intros; apply Hle; by right).
  unfold Datatypes.id in *. lia.
Qed.

(** ** The angle, as a function of the distance *)
Definition angle_of (W k : nat) : f64 :=
  f64_mul (f64_of_N (N.of_nat k)) (f64_div f64_pi (f64_of_N (N.of_nat W))).

Definition angles_ok (W : nat) : bool :=
  forallb (fun k => f64_ge (angle_of W k) (f64_of_N 0) && f64_ge f64_pi (angle_of W k) &&
    forallb (fun k' => f64_lt (angle_of W k) (angle_of W k')) (seq (S k) (W - k))) (seq 0 (S W)).

Lemma angles_ok_64 : angles_ok 64 = true.
Proof. vm_compute. reflexivity. Qed.
Lemma angles_ok_128 : angles_ok 128 = true.
Proof. vm_compute. reflexivity. Qed.

Lemma angle_facts W k : angles_ok W = true -> k <= W ->
  f64_ge (angle_of W k) (f64_of_N 0) = true /\ f64_ge f64_pi (angle_of W k) = true /\
  forall k', k < k' <= W -> f64_lt (angle_of W k) (angle_of W k') = true.
Proof.
  unfold angles_ok. intros Ha Hk. rewrite forallb_forall in Ha.
  assert (In k (seq 0 (S W))) as Hin by (apply in_seq; lia).
  apply Ha in Hin. rewrite !andb_true_iff, forallb_forall in Hin. destruct Hin as [[H1 H2] H3].
  split; [done|]. split; [done|]. intros k' Hk'. apply H3, in_seq. lia.
Qed.
