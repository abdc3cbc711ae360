(** Proofs about block layouts and permutations. *)
From stdpp Require Import base list.
From Coq Require Import NArith ZArith Lia Factorial ArithRing.
From Verif Require Import ListFacts Base SimHashBits Permutation SpecSimHash BitsFacts.
Local Open Scope nat_scope.

Local Notation pow2 W := (2 ^ N.of_nat W)%N.

(** ** Combinations *)
Section Combinations.
Context {A : Type}.

Lemma elem_of_combinations k (l l' : list A) :
  l' ∈ combinations k l <-> l' `sublist_of` l /\ length l' = k.
Proof.
  revert k l'. induction l as [|x l IH]; intros [|k] l'; simpl.
  - rewrite elem_of_list_singleton. split; [intros ->; split; [constructor|done]|].
    intros [_ ?%nil_length_inv]. done.
  - split; [by intros ?%elem_of_nil|]. intros [Hs Hl].
    apply sublist_nil_r in Hs. by subst.
  - rewrite elem_of_list_singleton. split; [intros ->; split; [apply sublist_nil_l|done]|].
    intros [_ ?%nil_length_inv]. done.
  - rewrite elem_of_app, elem_of_list_fmap. setoid_rewrite IH. split.
    + intros [(l0 & -> & Hs & Hl)|[Hs Hl]].
      * split; [by apply sublist_skip|simpl; lia].
      * split; [by apply sublist_cons|done].
    + intros [Hs Hl]. apply sublist_cons_r in Hs as [Hs|(l0 & -> & Hs)].
      * by right.
      * left. exists l0. simpl in Hl. split; [done|]. split; [done|lia].
Qed.

Lemma combinations_long k (l : list A) : length l < k -> combinations k l = [].
Proof.
  revert k. induction l as [|x l IH]; intros [|k] Hk; simpl in *; try lia; [done|].
  rewrite !IH by lia. done.
Qed.

Lemma combinations_count k (l : list A) : k <= length l ->
  length (combinations k l) * (fact k * fact (length l - k)) = fact (length l).
Proof.
  revert k. induction l as [|x l IH]; intros k Hk.
  { simpl in Hk. assert (k = 0) as -> by lia. done. }
  destruct k as [|k].
  { cbn [combinations length]. rewrite Nat.sub_0_r. cbn [fact]. lia. }
  cbn [combinations length] in *. rewrite app_length, fmap_length.
  replace (S (length l) - S k) with (length l - k) by lia.
  assert (E1 := IH k ltac:(lia)).
  change (fact (S (length l))) with ((S (length l)) * fact (length l)).
  change (fact (S k)) with (S k * fact k).
  set (c1 := length (combinations k l)) in *.
  set (n := length l) in *.
  destruct (decide (S k <= n)) as [Hlt|Hge].
  - assert (E2 := IH (S k) Hlt).
    change (fact (S k)) with (S k * fact k) in E2.
    replace (fact (n - k)) with ((n - k) * fact (n - S k)) in *.
    2:{ replace (n - k) with (S (n - S k)) by lia. done. }
    set (c2 := length (combinations (S k) l)) in *.
    set (fk := fact k) in *. set (f' := fact (n - S k)) in *. set (fn := fact n) in *.
    transitivity (S k * (c1 * (fk * ((n - k) * f'))) + (n - k) * (c2 * (S k * fk * f'))); [ring|].
    rewrite E1, E2. rewrite <- Nat.mul_add_distr_r. f_equal. lia.
  - rewrite combinations_long by (unfold n in *; lia). simpl length. rewrite Nat.add_0_r.
    assert (k = n) as -> by lia.
    transitivity (S n * (c1 * (fact n * fact (n - n)))); [ring|]. by rewrite E1.
Qed.

Lemma combinations_nonempty k (l : list A) : k <= length l -> combinations k l ≠ [].
Proof.
  intros Hk E. apply combinations_count in Hk. rewrite E in Hk. simpl in Hk.
  pose proof (lt_O_fact (length l)). lia.
Qed.
End Combinations.

Lemma combinations_fmap {A B} (f : A -> B) k (l : list A) :
  combinations k (map f l) = map (map f) (combinations k l).
Proof.
  revert k. induction l as [|x l IH]; intros [|k]; try done.
  cbn [combinations map]. rewrite !IH, map_app. f_equal.
  change (fmap (cons (f x)) ?a) with (map (cons (f x)) a).
  change (fmap (cons x) ?a) with (map (cons x) a).
  rewrite !map_map. done.
Qed.

(** ** Intervals of bits *)
Definition is_interval (m : N) (iv : nat * nat) : Prop :=
  forall j, bit m j = bool_decide (iv.1 <= j < iv.2).

Section Layout.
Context (W : nat).

Lemma skip_zeros_interval mask a b fuel i :
  is_interval mask (a, b) -> a < b <= W -> i <= a -> a <= fuel + i ->
  skip_zeros W fuel mask i = Some a.
Proof.
  intros Hm Hab. revert i. induction fuel as [|fuel IH]; intros i Hi Hf; cbn [skip_zeros].
  - destruct (shl_one W i) as (y & -> & Hy); [lia|]. cbn [mbind option_bind].
    rewrite (land_one_zero y i mask Hy), Hm. simpl. rewrite bool_decide_true by lia.
    simpl. f_equal. lia.
  - destruct (shl_one W i) as (y & -> & Hy); [lia|]. cbn [mbind option_bind].
    rewrite (land_one_zero y i mask Hy), Hm. simpl. destruct (decide (a <= i)).
    + rewrite bool_decide_true by lia. simpl. f_equal. lia.
    + rewrite bool_decide_false by lia. simpl. apply IH; lia.
Qed.

Lemma skip_zeros_zero fuel i : skip_zeros W fuel 0 i = None.
Proof.
  revert i. induction fuel as [|fuel IH]; intros i; cbn [skip_zeros].
  - destruct (shl W 1 i); cbn [mbind option_bind]; [|done]. by rewrite N.land_0_r.
  - destruct (shl W 1 i); cbn [mbind option_bind]; [|done]. by rewrite N.land_0_r, IH.
Qed.

Lemma skip_ones_interval mask a b fuel j :
  is_interval mask (a, b) -> a < b <= W -> a <= j <= b -> b <= fuel + j ->
  skip_ones W fuel mask j = Some b.
Proof.
  intros Hm Hab. revert j. induction fuel as [|fuel IH]; intros j Hj Hf; cbn [skip_ones].
  - assert (j = b) as -> by lia. destruct (b <? W) eqn:E; [|done]. apply Nat.ltb_lt in E.
    destruct (shl_one W b) as (y & -> & Hy); [lia|]. cbn [mbind option_bind].
    rewrite (land_one_zero y b mask Hy), Hm. simpl. rewrite bool_decide_false by lia. done.
  - destruct (j <? W) eqn:E.
    2:{ apply Nat.ltb_ge in E. f_equal. lia. }
    apply Nat.ltb_lt in E.
    destruct (shl_one W j) as (y & -> & Hy); [lia|]. cbn [mbind option_bind].
    rewrite (land_one_zero y j mask Hy), Hm. simpl. destruct (decide (j < b)).
    + rewrite bool_decide_true by lia. simpl. apply IH; lia.
    + rewrite bool_decide_false by lia. simpl. f_equal. lia.
Qed.

(** Where the blocks go: below the blocks already placed, which take [acc] bits. *)
Fixpoint placed (acc : nat) (ivs : list (nat * nat)) : list (nat * Z) :=
  match ivs with
  | [] => []
  | (a, b) :: ivs' =>
      (b - a, (Z.of_nat W - Z.of_nat (acc + (b - a)) - Z.of_nat a)%Z)
      :: placed (acc + (b - a)) ivs'
  end.

Definition ivs_ok (ivs : list (nat * nat)) : Prop := Forall (fun iv => iv.1 < iv.2 <= W) ivs.

Lemma layout_placed acc masks ivs :
  Forall2 is_interval masks ivs -> ivs_ok ivs -> layout W acc masks = Some (placed acc ivs).
Proof.
  intros HF. revert acc. induction HF as [|m [a b] masks ivs Hm HF IH]; intros acc Hok; [done|].
  apply Forall_cons in Hok as [Hab Hok]. simpl in Hab. cbn [layout placed].
  rewrite (skip_zeros_interval m a b) by (done || lia). cbn [mbind option_bind].
  rewrite (skip_ones_interval m a b) by (done || lia). cbn [mbind option_bind].
  rewrite IH by done. done.
Qed.

Lemma layout_zero acc masks : 0%N ∈ masks -> layout W acc masks = None.
Proof.
  revert acc. induction masks as [|m masks IH]; intros acc Hin; [by apply elem_of_nil in Hin|].
  cbn [layout]. apply elem_of_cons in Hin as [<-|Hin].
  - by rewrite skip_zeros_zero.
  - destruct (skip_zeros W W m 0) as [i|]; [|done]. cbn [mbind option_bind].
    destruct (skip_ones W W m i) as [j|]; [|done]. cbn [mbind option_bind].
    by rewrite IH.
Qed.

Lemma placed_length acc ivs : length (placed acc ivs) = length ivs.
Proof. revert acc. induction ivs as [|[a b] ivs IH]; intros acc; [done|]. simpl. by rewrite IH. Qed.

Lemma placed_app acc ivs1 ivs2 :
  placed acc (ivs1 ++ ivs2) = placed acc ivs1 ++ placed (acc + sum_list ((fun iv => iv.2 - iv.1) <$> ivs1)) ivs2.
Proof.
  revert acc. induction ivs1 as [|[a b] ivs1 IH]; intros acc; simpl.
  - by rewrite Nat.add_0_r.
  - rewrite IH. unfold fmap. by rewrite Nat.add_assoc.
Qed.

Lemma placed_widths acc ivs : (placed acc ivs).*1 = (fun iv => iv.2 - iv.1) <$> ivs.
Proof. revert acc. induction ivs as [|[a b] ivs IH]; intros acc; [done|]. simpl. by rewrite IH. Qed.

(** The search mask: the top [w] bits. *)
Lemma repeat_ones_bits n k m : 1 < W -> k + n <= W -> (forall i, bit m i = bool_decide (i < k)) ->
  exists m', repeat_res n (ones_step W) m = Some m' /\ forall i, bit m' i = bool_decide (i < k + n).
Proof.
  intros HW. revert k m. induction n as [|n IH]; intros k m Hk Hm; cbn [repeat_res].
  - exists m. split; [done|]. intros i. by rewrite Hm, Nat.add_0_r.
  - change (ones_step W m) with (s ← shl W m 1; Some (N.lor s 1)).
    destruct (shl_bits W m 1) as (y & -> & Hy); [lia|].
    cbn [mbind option_bind]. destruct (IH (S k) (N.lor y 1)) as (m' & -> & Hm'); [lia|..].
    + intros i. rewrite bit_lor, Hy, Hm, bit_1. repeat case_bool_decide; simpl; try done; lia.
    + exists m'. split; [done|]. intros i. rewrite Hm'. apply bool_decide_ext. lia.
Qed.

Lemma repeat_zeros_bits n m : 1 < W -> exists m', repeat_res n (zeros_step W) m = Some m' /\
  forall i, bit m' i = if decide (n = 0) then bit m i
                       else bool_decide (n <= i < W) && bit m (i - n).
Proof.
  intros HW. revert m. induction n as [|n IH]; intros m; cbn [repeat_res].
  - exists m. split; [done|]. intros i. by rewrite decide_True.
  - change (zeros_step W m) with (shl W m 1). destruct (shl_bits W m 1) as (y & -> & Hy); [lia|].
    cbn [mbind option_bind]. destruct (IH y) as (m' & -> & Hm'). exists m'.
    split; [done|]. intros i. rewrite decide_False by lia. rewrite Hm', !Hy.
    case_decide; subst; repeat case_bool_decide; simpl; try lia; try done.
    f_equal. lia.
Qed.

Lemma search_mask_bits w : 1 < W -> w <= W -> exists m, make_search_mask W w = Some m /\
  forall i, bit m i = bool_decide (W - w <= i < W).
Proof.
  intros HW Hw. unfold make_search_mask.
  destruct (repeat_ones_bits w 0 0 HW Hw) as (m & -> & Hm).
  { intros i. rewrite bit_0. by rewrite bool_decide_false by lia. }
  cbn [mbind option_bind].
  destruct (repeat_zeros_bits (W - w) m HW) as (m' & -> & Hm'). exists m'. split; [done|].
  intros i. rewrite Hm'. case_decide; rewrite Hm;
    repeat case_bool_decide; simpl; try lia; done.
Qed.

(** The bits of the moved blocks. *)
Fixpoint piece_bit (acc : nat) (ivs : list (nat * nat)) (x : N) (t : nat) : bool :=
  match ivs with
  | [] => false
  | (a, b) :: ivs' =>
      let acc' := acc + (b - a) in
      bool_decide (W - acc' <= t < W - acc) && bit x (t + a - (W - acc')) || piece_bit acc' ivs' x t
  end.

Definition total_width (ivs : list (nat * nat)) : nat := sum_list ((fun iv => iv.2 - iv.1) <$> ivs).

Lemma total_width_cons a b ivs : total_width ((a, b) :: ivs) = (b - a) + total_width ivs.
Proof. done. Qed.

Lemma move_block_bits acc a b mask x : 1 < W -> is_interval mask (a, b) -> a < b <= W ->
  acc + (b - a) <= W ->
  exists y, move_block W x (mask, (Z.of_nat W - Z.of_nat (acc + (b - a)) - Z.of_nat a)%Z) = Some y /\
    forall t, bit y t = bool_decide (W - (acc + (b - a)) <= t < W - acc)
                        && bit x (t + a - (W - (acc + (b - a)))).
Proof.
  intros HW Hm Hab Hacc. unfold move_block. simpl.
  destruct (0 <? _)%Z eqn:E.
  - apply Z.ltb_lt in E.
    destruct (shl_bits W (N.land x mask) (Z.to_nat (Z.of_nat W - Z.of_nat (acc + (b - a)) - Z.of_nat a)))
      as (y & -> & Hy); [lia|].
    exists y. split; [done|]. intros t. rewrite Hy, bit_land, Hm. simpl.
    repeat case_bool_decide; simpl; rewrite ?andb_false_r, ?andb_true_r; try lia; try done.
    f_equal. lia.
  - apply Z.ltb_ge in E.
    destruct (shr_bits W (N.land x mask) (Z.to_nat (0 - (Z.of_nat W - Z.of_nat (acc + (b - a)) - Z.of_nat a))))
      as (y & Ey & Hy); [lia|].
    exists y. split; [exact Ey|]. intros t. rewrite Hy, bit_land, Hm. simpl.
    repeat case_bool_decide; simpl; rewrite ?andb_false_r, ?andb_true_r; try lia; try done.
    f_equal. lia.
Qed.

Lemma pieces acc masks ivs x r : 1 < W -> Forall2 is_interval masks ivs -> ivs_ok ivs ->
  acc + total_width ivs <= W ->
  exists r', foldl (fun acc om => r ← acc; b ← move_block W x om; Some (N.lor r b)) (Some r)
      (zip masks (placed acc ivs).*2) = Some r' /\
    forall t, bit r' t = bit r t || piece_bit acc ivs x t.
Proof.
  intros HW HF. revert acc r. induction HF as [|m [a b] masks ivs Hm HF IH]; intros acc r Hok Hacc.
  - exists r. split; [done|]. intros t. simpl. by rewrite orb_false_r.
  - apply Forall_cons in Hok as [Hab Hok]. simpl in Hab. rewrite total_width_cons in Hacc.
    cbn [placed]. rewrite fmap_cons. cbn [zip zip_with foldl snd].
    destruct (move_block_bits acc a b m x HW Hm Hab) as (y & Ey & Hy); [lia|].
    cbn [mbind option_bind]. rewrite Ey. cbn [mbind option_bind].
    destruct (IH (acc + (b - a)) (N.lor r y) Hok ltac:(lia)) as (r' & Er & Hr).
    exists r'. split; [exact Er|]. intros t. rewrite Hr, bit_lor, Hy. simpl.
    by rewrite orb_assoc.
Qed.

Lemma piece_bit_range acc ivs x t : acc + total_width ivs <= W ->
  piece_bit acc ivs x t = true -> W - (acc + total_width ivs) <= t < W - acc.
Proof.
  revert acc. induction ivs as [|[a b] ivs IH]; intros acc Hacc Ht; [done|].
  rewrite total_width_cons in *. simpl in Ht.
  apply orb_true_iff in Ht as [[Ht _]%andb_true_iff|Ht].
  - apply bool_decide_eq_true in Ht. lia.
  - apply IH in Ht; lia.
Qed.

Lemma piece_bit_inj acc ivs x y : ivs_ok ivs -> acc + total_width ivs <= W ->
  (forall t, piece_bit acc ivs x t = piece_bit acc ivs y t) <->
  (forall a b j, (a, b) ∈ ivs -> a <= j < b -> bit x j = bit y j).
Proof.
  revert acc. induction ivs as [|[a b] ivs IH]; intros acc Hok Hacc.
  { split; [|done]. by intros _ a b j ?%elem_of_nil. }
  apply Forall_cons in Hok as [Hab Hok]. simpl in Hab. rewrite total_width_cons in *.
  specialize (IH (acc + (b - a)) Hok ltac:(lia)).
  assert (Hout : forall z t, W - (acc + (b - a)) <= t -> piece_bit (acc + (b - a)) ivs z t = false).
  { intros z t Ht. apply not_true_iff_false. intros Hp. apply piece_bit_range in Hp; lia. }
  split.
  - intros Heq.
    assert (Hrest : forall t, piece_bit (acc + (b - a)) ivs x t = piece_bit (acc + (b - a)) ivs y t).
    { intros t. destruct (decide (W - (acc + (b - a)) <= t)); [by rewrite !Hout|].
      specialize (Heq t). cbn [piece_bit] in Heq. rewrite bool_decide_false in Heq by lia. exact Heq. }
    intros a' b' j [[= -> ->]|Hin]%elem_of_cons Hj; [|by eapply IH].
    specialize (Heq (j + (W - (acc + (b - a))) - a)). cbn [piece_bit] in Heq.
    rewrite bool_decide_true in Heq by lia. rewrite !Hout, !orb_false_r in Heq by lia.
    replace (j + (W - (acc + (b - a))) - a + a - (W - (acc + (b - a)))) with j in Heq by lia.
    exact Heq.
  - intros Heq t. cbn [piece_bit].
    assert (Hr := proj2 IH). rewrite Hr.
    2:{ intros a' b' j Hin. apply Heq. by right. }
    case_bool_decide; [|done]. f_equal. simpl. apply (Heq a b); [by left|lia].
Qed.

(** The whole of [new] on disjoint non-empty intervals. *)
Lemma perm_new_spec (choice others : list N) (ivs ivs' : list (nat * nat)) :
  1 < W -> Forall2 is_interval choice ivs -> Forall2 is_interval others ivs' ->
  ivs_ok ivs -> ivs_ok ivs' -> total_width ivs <= W ->
  exists p, perm_new W (length others) (choice ++ others) choice = Some p /\
    width p = total_width ivs /\
    (forall j, bit (simple_mask p) j = true <-> exists a b, (a, b) ∈ ivs /\ a <= j < b) /\
    (forall j, bit (search_mask p) j = bool_decide (W - total_width ivs <= j < W)) /\
    forall x, exists r, permute W p x = Some r /\ forall t, bit r t = piece_bit 0 ivs x t.
Proof.
  intros HW HF HF' Hok Hok' Htw. unfold perm_new.
  rewrite (layout_placed 0 (choice ++ others) (ivs ++ ivs')).
  2:{ by apply Forall2_app. }
  2:{ by apply Forall_app. }
  cbn [mbind option_bind]. rewrite placed_length, app_length.
  pose proof (Forall2_length _ _ _ HF) as Hl. pose proof (Forall2_length _ _ _ HF') as Hl'.
  rewrite (proj2 (Nat.leb_le _ _)) by lia.
  replace (length ivs + length ivs' - length others) with (length ivs) by lia.
  rewrite placed_app. rewrite take_app_alt by (by rewrite placed_length).
  rewrite placed_widths. change (sum_list _) with (total_width ivs).
  destruct (search_mask_bits (total_width ivs) HW Htw) as (sm & -> & Hsm).
  cbn [mbind option_bind]. eexists. split; [done|]. cbn [width simple_mask search_mask].
  split; [done|]. split; [|split; [exact Hsm|]].
  - intros j. clear Htw Hok Hl Hsm.
    assert (G : forall m, bit (foldl N.lor m choice) j = true <->
       bit m j = true \/ exists a b, (a, b) ∈ ivs /\ a <= j < b).
    { induction HF as [|c [a b] cs ivs Hc HF IH]; intros m; simpl.
      - split; [by left|]. intros [?|(a & b & ?%elem_of_nil & _)]; done.
      - rewrite IH, bit_lor, orb_true_iff, Hc, bool_decide_eq_true. simpl. split.
        + intros [[?|?]|(a' & b' & ? & ?)]; [by left|right; exists a, b; split; [by left|done]|].
          right. exists a', b'. split; [by right|done].
        + intros [?|(a' & b' & [[= -> ->]|?]%elem_of_cons & ?)]; [by left; left|by left; right|].
          right. eauto. }
    rewrite G, bit_0. naive_solver.
  - intros x. unfold permute. cbn [offsets_masks search_mask].
    rewrite fmap_app.
    assert (E : forall rest : list Z, take (length ivs) (zip (choice ++ others)
        ((placed 0 ivs).*2 ++ rest)) = zip choice (placed 0 ivs).*2).
    { intros rest. rewrite zip_with_app by (by rewrite fmap_length, placed_length).
      rewrite take_app_alt; [done|]. rewrite zip_with_length, fmap_length, placed_length. lia. }
    rewrite E.
    destruct (pieces 0 choice ivs x 0 HW HF Hok ltac:(lia)) as (r & -> & Hr).
    cbn [mbind option_bind]. eexists. split; [done|]. intros t.
    rewrite bit_land, Hr, bit_0, Hsm. simpl.
    destruct (piece_bit 0 ivs x t) eqn:Hp; [|done]. simpl.
    apply piece_bit_range in Hp; [|lia]. apply bool_decide_eq_true. lia.
Qed.
End Layout.

(** ** The blocks of [create] *)
Section Create.
Context (W nb : nat).

Definition iv (i : nat) : nat * nat := (i * W / nb, (i + 1) * W / nb).

Lemma iv_bound i : i < nb -> (iv i).1 <= (iv i).2 <= W.
Proof.
  intros Hi. unfold iv. simpl. split.
  - apply Nat.div_le_mono; lia.
  - apply Nat.div_le_upper_bound; [lia|]. nia.
Qed.

Lemma iv_mono i i' : 0 < nb -> i < i' -> (iv i).2 <= (iv i').1.
Proof. intros Hn Hi. unfold iv. simpl. apply Nat.div_le_mono; [lia|]. nia. Qed.

Lemma iv_nonempty i : nb <= W -> i < nb -> (iv i).1 < (iv i).2.
Proof.
  intros Hn Hi. unfold iv. simpl.
  replace ((i + 1) * W) with (i * W + W) by lia.
  assert (i * W / nb + 1 <= (i * W + W) / nb); [|lia].
  rewrite <- (Nat.div_add (i * W) 1 nb) by lia. apply Nat.div_le_mono; lia.
Qed.

Lemma iv_cover j : 0 < nb -> j < W -> exists i, i < nb /\ (iv i).1 <= j < (iv i).2.
Proof.
  intros Hn Hj.
  assert (G : forall n, n <= nb -> (n = 0 \/ (iv (n - 1)).2 <= j) \/
     exists i, i < n /\ (iv i).1 <= j < (iv i).2).
  { induction n as [|n IH]; intros Hle; [by left; left|].
    destruct (IH ltac:(lia)) as [Hlow|(i & Hi & Hiv)]; [|right; exists i; split; [lia|done]].
    replace (S n - 1) with n by lia.
    destruct (decide ((iv n).2 <= j)) as [|Hgt]; [by left; right|]. right. exists n.
    split; [lia|]. split; [|lia]. destruct Hlow as [->|Hlow].
    - unfold iv. simpl. rewrite Nat.div_0_l by lia. lia.
    - destruct n as [|n].
      { unfold iv. simpl. rewrite Nat.div_0_l by lia. lia. }
      replace (S n - 1) with n in Hlow by lia.
      assert (E : (iv (S n)).1 = (iv n).2); [|lia].
      unfold iv. cbn [fst snd]. f_equal. lia. }
  destruct (G nb ltac:(lia)) as [[?|Hlast]|?]; [lia| |done].
  exfalso. unfold iv in Hlast. simpl in Hlast.
  replace ((nb - 1 + 1) * W) with (W * nb) in Hlast by nia.
  rewrite Nat.div_mul in Hlast by lia. lia.
Qed.

Lemma block_mask_interval i : i < nb -> exists m, block_mask W nb i = Some m /\ is_interval m (iv i).
Proof.
  intros Hi. pose proof (iv_bound i Hi) as Hb. unfold block_mask.
  change (i * W / nb) with (iv i).1. change ((i + 1) * W / nb) with (iv i).2.
  destruct (iv i) as [a b]. cbn [fst snd] in *. unfold is_interval. cbn [fst snd].
  assert (G : forall n m, a + n <= W ->
    exists m' : N, foldl (fun (acc : option N) j => m ← acc; b ← shl W 1 j; Some (N.lor m b))
      (Some m) (seq a n) = Some m' /\
      forall j, bit m' j = bit m j || bool_decide (a <= j < a + n)).
  { induction n as [|n IH]; intros m Hn.
    - exists m. split; [done|]. intros j. rewrite bool_decide_false by lia. by rewrite orb_false_r.
    - rewrite seq_S, foldl_app. destruct (IH m ltac:(lia)) as (m' & -> & Hm').
      cbn [foldl mbind option_bind]. destruct (shl_one W (a + n)) as (y & -> & Hy); [lia|].
      cbn [mbind option_bind]. eexists. split; [done|]. intros j.
      rewrite bit_lor, Hm', Hy, <- orb_assoc. f_equal.
      repeat case_bool_decide; simpl; try done; lia. }
  destruct (G (b - a) 0%N ltac:(lia)) as (m & -> & Hm). exists m. split; [done|].
  intros j. rewrite Hm, bit_0. simpl. replace (a + (b - a)) with b by lia. done.
Qed.

(** The mask as a function. *)
Definition blk (i : nat) : N := default 0%N (block_mask W nb i).

Lemma blk_interval i : i < nb -> is_interval (blk i) (iv i).
Proof. intros Hi. unfold blk. by destruct (block_mask_interval i Hi) as (m & -> & Hm). Qed.

Lemma blocks_ok : mapM (block_mask W nb) (seq 0 nb) = Some (blk <$> seq 0 nb).
Proof.
  apply mapM_Some_2. apply Forall2_fmap_r. apply Forall_Forall2_diag, Forall_forall.
  intros i [_ Hi]%elem_of_seq. unfold blk.
  destruct (block_mask_interval i ltac:(lia)) as (m & Em & _). simpl. by rewrite Em.
Qed.

Lemma blk_inj i i' : nb <= W -> i < nb -> i' < nb -> blk i = blk i' -> i = i'.
Proof.
  intros Hn Hi Hi' E.
  assert (G : forall i i', i < nb -> i' < nb -> i < i' -> blk i ≠ blk i').
  { clear i i' Hi Hi' E. intros i i' Hi Hi' Hlt E. pose proof (iv_nonempty i Hn Hi).
    pose proof (blk_interval i Hi (iv i).1) as H1.
    pose proof (blk_interval i' Hi' (iv i).1) as H2.
    pose proof (iv_bound i Hi). pose proof (iv_mono i i' ltac:(lia) Hlt).
    rewrite E, H2 in H1. clear H2. revert H1. repeat case_bool_decide; try done; intros _; lia. }
  destruct (lt_eq_lt_dec i i') as [[Hlt| ->]|Hlt]; [|done|].
  - by destruct (G i i').
  - by destruct (G i' i).
Qed.

Lemma all_blocks_app (A l : list nat) :
  nb <= W -> Forall (fun i => i < nb) A -> Forall (fun i => i < nb) l -> NoDup l ->
  all_blocks (map blk l) (map blk A) = map blk (A ++ filter (fun i => i ∉ A) l).
Proof.
  intros Hn. unfold all_blocks. revert A. induction l as [|x l IH]; intros A HA Hl Hnd.
  - simpl. by rewrite app_nil_r.
  - apply Forall_cons in Hl as [Hx Hl]. apply NoDup_cons in Hnd as [Hni Hnd].
    cbn [map foldl]. rewrite filter_cons.
    assert (Hiff : blk x ∈ map blk A <-> x ∈ A).
    { change (map blk A) with (blk <$> A). rewrite elem_of_list_fmap. split.
      - intros (y & E & Hy). rewrite Forall_forall in HA.
        apply blk_inj in E; [by subst|done|done|auto].
      - intros Hin. eauto. }
    destruct (decide (blk x ∈ map blk A)) as [Hin|Hnin].
    + rewrite (decide_False (P := x ∉ A)) by tauto. apply IH; done.
    + rewrite decide_True by tauto.
      replace (map blk A ++ [blk x]) with (map blk (A ++ [x])) by (by rewrite map_app).
      rewrite IH; [|by apply Forall_app; split; [|constructor]|done|done].
      rewrite <- app_assoc. simpl. f_equal. f_equal. f_equal.
      apply filter_ext_length. intros y Hy. rewrite elem_of_app, elem_of_list_singleton.
      split; [tauto|]. intros Hny [?| ->]; done.
Qed.

Lemma filter_split_length {B} (P : B -> Prop) `{!forall x, Decision (P x)} (l : list B) :
  length (filter P l) + length (filter (fun x => ~ P x) l) = length l.
Proof.
  induction l as [|x l IH]; [done|]. rewrite !filter_cons.
  destruct (decide (P x)).
  - rewrite decide_False by tauto. simpl. lia.
  - rewrite decide_True by done. simpl. lia.
Qed.

Lemma others_length (I : list nat) : I `sublist_of` seq 0 nb ->
  length (filter (fun i => i ∉ I) (seq 0 nb)) = nb - length I.
Proof.
  intros Hs. pose proof (filter_split_length (fun i => i ∈ I) (seq 0 nb)) as E.
  rewrite seq_length in E.
  assert (Hp : filter (fun i => i ∈ I) (seq 0 nb) ≡ₚ I).
  { apply NoDup_Permutation.
    - apply NoDup_filter, NoDup_seq.
    - eapply sublist_NoDup; [|exact Hs]. apply NoDup_seq.
    - intros i. rewrite elem_of_list_filter. split; [tauto|]. intros Hi. split; [done|].
      eapply elem_of_submseteq; [exact Hi|]. by apply sublist_submseteq. }
  rewrite Hp in E. lia.
Qed.

Lemma interval_count a b n : a <= b ->
  length (filter (fun j => a <= j < b) (seq 0 n)) = n `min` b - n `min` a.
Proof.
  intros Hab. induction n as [|n IH]; [done|].
  rewrite seq_S, filter_app, app_length, IH, filter_cons, filter_nil.
  case_decide; cbn [length]; lia.
Qed.

Definition in_some_block (I : list nat) (j : nat) : Prop := Exists (fun i => (iv i).1 <= j < (iv i).2) I.
Global Instance in_some_block_dec I j : Decision (in_some_block I j) := _.

Lemma width_count (I : list nat) : NoDup I -> Forall (fun i => i < nb) I ->
  total_width (iv <$> I) = length (filter (in_some_block I) (seq 0 W)).
Proof.
  induction I as [|x I IH]; intros Hnd HI.
  { rewrite (filter_ext_length _ (fun _ => False)).
    - by induction (seq 0 W).
    - intros j _. split; [|done]. intros H. inversion H. }
  apply NoDup_cons in Hnd as [Hni Hnd]. apply Forall_cons in HI as [Hx HI].
  rewrite fmap_cons. pose proof (iv_bound x Hx) as Hb.
  transitivity (((iv x).2 - (iv x).1) + total_width (iv <$> I)); [by destruct (iv x)|].
  rewrite IH by done.
  replace ((iv x).2 - (iv x).1) with (length (filter (fun j => (iv x).1 <= j < (iv x).2) (seq 0 W))).
  2:{ rewrite interval_count by lia. lia. }
  assert (Hdis : forall j, (iv x).1 <= j < (iv x).2 -> ~ in_some_block I j).
  { intros j Hj (i & Hi & Hij)%Exists_exists. rewrite Forall_forall in HI.
    assert (i ≠ x) by (by intros ->). specialize (HI i Hi).
    destruct (decide (i < x)).
    - pose proof (iv_mono i x ltac:(lia) ltac:(lia)). lia.
    - pose proof (iv_mono x i ltac:(lia) ltac:(lia)). lia. }
  clear IH. induction (seq 0 W) as [|j l IHl]; [done|]. rewrite !filter_cons.
  destruct (decide ((iv x).1 <= j < (iv x).2)) as [Hj|Hj].
  - rewrite (decide_False (P := in_some_block I j)) by auto.
    rewrite (decide_True (P := in_some_block (x :: I) j)) by (by left). cbn [length]. lia.
  - destruct (decide (in_some_block I j)).
    + rewrite (decide_True (P := in_some_block (x :: I) j)) by (by right). cbn [length]. lia.
    + rewrite (decide_False (P := in_some_block (x :: I) j)) by (intros H'; inversion H'; done). lia.
Qed.

(** What is known of a permutation made from the blocks [I]. *)
Definition perm_ok (I : list nat) (p : permutation) : Prop :=
  width p = total_width (iv <$> I) /\
  (forall j, bit (simple_mask p) j = true <-> exists i, i ∈ I /\ in_block W nb i j) /\
  (forall j, bit (search_mask p) j = bool_decide (W - total_width (iv <$> I) <= j < W)) /\
  forall x, exists r, permute W p x = Some r /\ forall t, bit r t = piece_bit W 0 (iv <$> I) x t.

Lemma sublist_bound (I : list nat) : I `sublist_of` seq 0 nb -> NoDup I /\ Forall (fun i => i < nb) I.
Proof.
  intros Hs. split.
  - eapply sublist_NoDup; [|exact Hs]. apply NoDup_seq.
  - apply Forall_forall. intros i Hi.
    assert (i ∈ seq 0 nb) as ?%elem_of_seq; [|lia].
    eapply elem_of_submseteq; [exact Hi|]. by apply sublist_submseteq.
Qed.

Lemma width_le (I : list nat) : I `sublist_of` seq 0 nb -> total_width (iv <$> I) <= W.
Proof.
  intros [Hnd HI]%sublist_bound. rewrite width_count by done.
  rewrite <- (seq_length W 0) at 2. apply filter_length.
Qed.

Lemma intervals_of (I : list nat) : nb <= W -> Forall (fun i => i < nb) I ->
  Forall2 is_interval (map blk I) (iv <$> I) /\ ivs_ok W (iv <$> I).
Proof.
  intros Hn HI. split.
  - apply Forall2_fmap_2, Forall_Forall2_diag. eapply Forall_impl; [exact HI|].
    intros i Hi. by apply blk_interval.
  - apply Forall_fmap. eapply Forall_impl; [exact HI|]. intros i Hi. unfold compose.
    pose proof (iv_nonempty i Hn Hi). pose proof (iv_bound i Hi). lia.
Qed.

Lemma perm_create_spec d : 1 < W -> nb <= W -> d <= nb ->
  exists perms, perm_create W nb d = Some perms /\
    Forall2 perm_ok (combinations (nb - d) (seq 0 nb)) perms.
Proof.
  intros HW Hn Hd. unfold perm_create. rewrite blocks_ok. cbn [mbind option_bind].
  rewrite (proj2 (Nat.leb_le _ _) Hd).
  change (blk <$> seq 0 nb) with (map blk (seq 0 nb)). rewrite combinations_fmap.
  assert (Hall : forall I, I ∈ combinations (nb - d) (seq 0 nb) ->
    I `sublist_of` seq 0 nb /\ length I = nb - d) by (intros I; apply elem_of_combinations).
  induction (combinations (nb - d) (seq 0 nb)) as [|I Is IH].
  { exists []. split; [done|constructor]. }
  destruct IH as (perms & E & HF); [intros; apply Hall; by right|].
  destruct (Hall I (elem_of_list_here _ _)) as [Hs Hl].
  destruct (sublist_bound I Hs) as [Hnd HI].
  destruct (intervals_of I Hn HI) as [HF1 Hok1].
  set (J := filter (fun i => i ∉ I) (seq 0 nb)).
  assert (HJ : Forall (fun i => i < nb) J).
  { apply Forall_forall. intros i [_ Hi]%elem_of_list_filter. apply elem_of_seq in Hi. lia. }
  destruct (intervals_of J Hn HJ) as [HF2 Hok2].
  destruct (perm_new_spec W (map blk I) (map blk J) (iv <$> I) (iv <$> J)) as
    (p & Ep & Hw & Hm & Hsm & Hp); [done..|by apply width_le|].
  exists (p :: perms). cbn [map mapM]. split.
  - rewrite all_blocks_app.
    2:{ done. } 2:{ done. }
    2:{ apply Forall_forall. intros i Hi. apply elem_of_seq in Hi. lia. }
    2:{ apply NoDup_seq. }
    fold J. rewrite map_app. rewrite map_length in Ep.
    assert (Hlen : length J = d) by (unfold J; rewrite others_length by done; lia).
    rewrite Hlen in Ep. rewrite Ep. cbn [mbind option_bind].
    cbn [mapM] in E. rewrite E. done.
  - constructor; [|done]. split; [done|]. split; [|split; [exact Hsm|exact Hp]].
    intros j. rewrite Hm. split.
    + intros (a & b & (i & Ei & Hi)%elem_of_list_fmap & Hj). exists i. split; [done|].
      unfold iv in Ei. injection Ei as -> ->. done.
    + intros (i & Hi & Hj). exists (iv i).1, (iv i).2. split; [|done].
      apply elem_of_list_fmap. by exists i.
Qed.

(** Failures. *)
Lemma perm_create_underflow d : nb < d -> perm_create W nb d = None.
Proof.
  intros Hd. unfold perm_create. rewrite blocks_ok. cbn [mbind option_bind].
  by rewrite (proj2 (Nat.leb_gt _ _) Hd).
Qed.

Lemma all_blocks_elem (blocks comb : list N) m : m ∈ blocks -> m ∈ all_blocks blocks comb.
Proof.
  assert (Hacc : forall bs acc, m ∈ acc ->
    m ∈ foldl (fun acc v => if decide (v ∈ acc) then acc else acc ++ [v]) acc bs).
  { induction bs as [|b bs IH]; intros acc Hin; [done|]. simpl. apply IH.
    case_decide; [done|]. set_solver. }
  unfold all_blocks. revert comb. induction blocks as [|b bs IH]; intros comb Hin;
    [by apply elem_of_nil in Hin|].
  simpl. apply elem_of_cons in Hin as [<-|Hin]; [|by apply IH].
  apply Hacc. case_decide; [done|]. set_solver.
Qed.

Lemma empty_block : W < nb -> exists i, i < nb /\ (iv i).1 = (iv i).2.
Proof.
  intros Hlt.
  assert (G : forall n, n <= nb -> (exists i, i < n /\ (iv i).1 = (iv i).2) \/ n <= n * W / nb).
  { induction n as [|n IH]; intros Hn; [right; lia|].
    destruct (IH ltac:(lia)) as [(i & Hi & E)|Hge]; [left; exists i; split; [lia|done]|].
    destruct (decide ((iv n).1 = (iv n).2)) as [E|E]; [left; exists n; split; [lia|done]|].
    right. pose proof (iv_bound n ltac:(lia)) as Hb.
    change (n * W / nb) with (iv n).1 in Hge.
    replace (S n * W / nb) with (iv n).2; [lia|]. unfold iv. cbn [fst snd]. f_equal. lia. }
  destruct (G nb ltac:(lia)) as [?|Hge]; [done|].
  rewrite Nat.mul_comm, Nat.div_mul in Hge by lia. lia.
Qed.

Lemma perm_create_too_many d : W < nb -> perm_create W nb d = None.
Proof.
  intros Hlt. destruct (decide (nb < d)) as [Hd|Hd]; [by apply perm_create_underflow|].
  unfold perm_create. rewrite blocks_ok. cbn [mbind option_bind].
  rewrite (proj2 (Nat.leb_le _ _)) by lia.
  destruct (empty_block Hlt) as (i & Hi & E).
  assert (Hz : 0%N ∈ blk <$> seq 0 nb).
  { apply elem_of_list_fmap. exists i. split; [|apply elem_of_seq; lia].
    apply bits_eq. intros j. rewrite (blk_interval i Hi), bit_0.
    symmetry. apply bool_decide_false. lia. }
  assert (Hne := combinations_nonempty (nb - d) (blk <$> seq 0 nb)).
  destruct (combinations (nb - d) (blk <$> seq 0 nb)) as [|c cs].
  { exfalso. apply Hne; [rewrite fmap_length, seq_length; lia|done]. }
  cbn [mapM].
  assert (En : perm_new W d (all_blocks (blk <$> seq 0 nb) c) c = None); [|by rewrite En].
  unfold perm_new. rewrite layout_zero; [done|]. by apply all_blocks_elem.
Qed.
End Create.

(** ** Agreement under a key mask *)
Lemma land_agree (M x y : N) :
  N.land x M = N.land y M <-> forall j, bit M j = true -> bit x j = bit y j.
Proof.
  split.
  - intros E j Hj. assert (Eb : bit (N.land x M) j = bit (N.land y M) j) by congruence.
    rewrite !bit_land, Hj, !andb_true_r in Eb. done.
  - intros Hb. apply bits_eq. intros j. rewrite !bit_land.
    destruct (bit M j) eqn:E; [by rewrite Hb|by rewrite !andb_false_r].
Qed.

(** Pigeonhole: signatures at distance at most [d] agree on all of [nb - d] blocks. *)
Lemma agreeing_blocks W nb d x y : 1 < W -> nb <= W -> d <= nb -> hamming W x y <= d ->
  exists I, I ∈ combinations (nb - d) (seq 0 nb) /\
    forall i j, i ∈ I -> in_block W nb i j -> bit x j = bit y j.
Proof.
  intros HW Hn Hd Hh.
  set (D := filter (fun j => bit x j ≠ bit y j) (seq 0 W)).
  set (good := filter (fun i => Forall (fun j => ~ in_block W nb i j) D) (seq 0 nb)).
  assert (Hgood : nb - d <= length good).
  { pose proof (filter_split_length (fun i => Forall (fun j => ~ in_block W nb i j) D) (seq 0 nb)) as E.
    rewrite seq_length in E. fold good in E.
    set (bad := filter _ (seq 0 nb)) in E.
    assert (Hbad : length bad <= length D).
    { assert (Hm : forall l, NoDup l -> (forall i, i ∈ l -> i < nb /\ Exists (fun j => in_block W nb i j) D) ->
         length l <= length D).
      { clear good E bad.
        intros l Hnd Hl.
        assert (Hf : exists js, length js = length l /\ NoDup js /\ js ⊆ D /\
           forall j, j ∈ js -> exists i, i ∈ l /\ in_block W nb i j).
        { induction l as [|i l IH].
          - exists []. split; [done|]. split; [constructor|]. split; [set_solver|].
            by intros j ?%elem_of_nil.
          - apply NoDup_cons in Hnd as [Hni Hnd].
            destruct IH as (js & Hlen & Hndj & Hsub & Hj); [done|intros; apply Hl; by right|].
            destruct (Hl i (elem_of_list_here _ _)) as [Hi (j & HjD & Hij)%Exists_exists].
            exists (j :: js). split; [simpl; lia|]. split.
            + constructor; [|done]. intros (i' & Hi' & Hij')%Hj.
              assert (i' < nb) by (apply Hl; by right).
              assert (i ≠ i') by (by intros ->). unfold in_block in *.
              destruct (decide (i < i')).
              * pose proof (iv_mono W nb i i' ltac:(lia) ltac:(lia)). unfold iv in *. simpl in *. lia.
              * pose proof (iv_mono W nb i' i ltac:(lia) ltac:(lia)). unfold iv in *. simpl in *. lia.
            + split; [set_solver|]. intros j' [->|Hj']%elem_of_cons.
              * exists i. split; [by left|done].
              * destruct (Hj j' Hj') as (i' & ? & ?). exists i'. split; [by right|done]. }
        destruct Hf as (js & <- & Hndj & Hsub & _).
        apply submseteq_length, NoDup_submseteq; [done|]. intros j Hj. by apply Hsub. }
      apply Hm.
      - apply NoDup_filter, NoDup_seq.
      - intros i [Hi1 Hi2]%elem_of_list_filter. split; [apply elem_of_seq in Hi2; lia|].
        apply not_Forall_Exists in Hi1; [|intros j; unfold in_block; apply _].
        eapply Exists_impl; [exact Hi1|]. intros j Hj. unfold compose in Hj.
        unfold in_block in *. lia. }
    change (length D) with (hamming W x y) in Hbad. lia. }
  exists (take (nb - d) good). split.
  - apply elem_of_combinations. split.
    + transitivity good; [apply sublist_take|apply sublist_filter].
    + rewrite take_length. lia.
  - intros i j Hi Hj.
    assert (i ∈ good) as Hig.
    { eapply elem_of_submseteq; [exact Hi|]. apply sublist_submseteq, sublist_take. }
    apply elem_of_list_filter in Hig as [Hno His]. apply elem_of_seq in His.
    rewrite Forall_forall in Hno.
    destruct (decide (bit x j = bit y j)) as [|Hne]; [done|]. exfalso.
    apply (Hno j); [|done]. apply elem_of_list_filter. split; [done|]. apply elem_of_seq.
    pose proof (iv_bound W nb i ltac:(lia)). unfold in_block, iv in *. simpl in *. lia.
Qed.

(** ** Summary of a created permutation *)
Lemma perm_ok_facts W nb I p : 1 < W -> nb <= W -> I `sublist_of` seq 0 nb -> perm_ok W nb I p ->
  width p = length (filter (fun j => bit (simple_mask p) j = true) (seq 0 W)) /\
  (forall j, bit (search_mask p) j = true <-> W - width p <= j < W) /\
  (forall j, bit (simple_mask p) j = true -> j < W) /\
  (forall x, exists r, permute W p x = Some r /\ forall t, bit r t = true -> W - width p <= t < W) /\
  forall x y, permute W p x = permute W p y <->
    N.land x (simple_mask p) = N.land y (simple_mask p).
Proof.
  intros HW Hn Hs (Hw & Hm & Hsm & Hp).
  destruct (sublist_bound nb I Hs) as [Hnd HI].
  assert (Htw : total_width (iv W nb <$> I) <= W) by (by apply width_le).
  assert (Hmb : forall j, bit (simple_mask p) j = true <-> in_some_block W nb I j).
  { intros j. rewrite Hm. unfold in_some_block. rewrite Exists_exists. done. }
  split; [|split; [|split; [|split]]].
  - rewrite Hw, width_count by done. f_equal. apply filter_ext_length. intros j _. by rewrite Hmb.
  - intros j. by rewrite Hsm, bool_decide_eq_true, Hw.
  - intros j (i & Hi & Hj)%Hm. rewrite Forall_forall in HI. specialize (HI i Hi).
    pose proof (iv_bound W nb i HI). unfold in_block, iv in *. cbn in *. lia.
  - intros x. destruct (Hp x) as (r & -> & Hr). exists r. split; [done|]. intros t Ht.
    rewrite Hr in Ht. apply piece_bit_range in Ht; [|lia]. rewrite Hw. lia.
  - intros x y. destruct (Hp x) as (rx & -> & Hrx). destruct (Hp y) as (ry & -> & Hry).
    rewrite land_agree.
    assert (Hok : ivs_ok W (iv W nb <$> I)) by (by apply intervals_of).
    transitivity (forall t, piece_bit W 0 (iv W nb <$> I) x t = piece_bit W 0 (iv W nb <$> I) y t).
    + split.
      * intros [= ->] t. by rewrite <- Hrx, <- Hry.
      * intros E. f_equal. apply bits_eq. intros t. by rewrite Hrx, Hry.
    + rewrite piece_bit_inj by (try done; lia). split.
      * intros Hag j (i & Hi & Hj)%Hm. apply (Hag (iv W nb i).1 (iv W nb i).2); [|exact Hj].
        apply elem_of_list_fmap. by exists i.
      * intros Hag a b j (i & E & Hi)%elem_of_list_fmap Hj. apply Hag, Hm. exists i. split; [done|].
        unfold iv in E. injection E as -> ->. exact Hj.
Qed.

Lemma block_facts W nb : 0 < nb <= W ->
  (forall i, i < nb -> exists m, block_mask W nb i = Some m /\
     forall j, bit m j = true <-> in_block W nb i j) /\
  (forall i, i < nb -> exists j, in_block W nb i j) /\
  (forall i j, i < nb -> in_block W nb i j -> j < W) /\
  (forall j, j < W -> exists i, i < nb /\ in_block W nb i j) /\
  (forall i i' j, i < nb -> i' < nb -> in_block W nb i j -> in_block W nb i' j -> i = i').
Proof.
  intros [Hnb Hn]. split; [|split; [|split; [|split]]].
  - intros i Hi. destruct (block_mask_interval W nb i Hi) as (m & E & Hm). exists m. split; [done|].
    intros j. rewrite (Hm j), bool_decide_eq_true. done.
  - intros i Hi. exists (iv W nb i).1. pose proof (iv_nonempty W nb i Hn Hi). unfold in_block, iv in *.
    cbn in *. lia.
  - intros i j Hi Hj. pose proof (iv_bound W nb i Hi). unfold in_block, iv in *. cbn in *. lia.
  - intros j Hj. destruct (iv_cover W nb j Hnb Hj) as (i & Hi & Hij). by exists i.
  - intros i i' j Hi Hi' Hj Hj'. destruct (Nat.lt_trichotomy i i') as [Hlt|[?|Hlt]]; [|done|].
    + pose proof (iv_mono W nb i i' Hnb Hlt). unfold in_block, iv in *. cbn in *. lia.
    + pose proof (iv_mono W nb i' i Hnb Hlt). unfold in_block, iv in *. cbn in *. lia.
Qed.
