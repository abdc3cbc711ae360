(** Builds with and without overflow checks: proofs (definitions in Unchecked.v). *)
From stdpp Require Import base list gmap.
From Coq Require Import NArith ZArith Lia.
From Verif Require Import Base SimHashBits Permutation SimHashIndex SpecSimHash BitsFacts PermutationFacts Unchecked.

Section Facts.
Context (W : nat).

Lemma shl_same x n r : shl W x n = Some r -> shl_u W x (N.of_nat n) = r.
Proof.
  unfold shl, shl_u. destruct (Nat.ltb_spec n W) as [Hn|]; [|done]. intros [= <-].
  by rewrite (N.mod_small (N.of_nat n)) by lia.
Qed.
Lemma shr_same x n r : shr W x n = Some r -> shr_u W x (N.of_nat n) = r.
Proof.
  unfold shr, shr_u. destruct (Nat.ltb_spec n W) as [Hn|]; [|done]. intros [= <-].
  by rewrite (N.mod_small (N.of_nat n)) by lia.
Qed.
Lemma shl_bound x n r : shl W x n = Some r -> n < W.
Proof. unfold shl. destruct (Nat.ltb_spec n W); [done|done]. Qed.

Lemma skip_zeros_same mask : (N.of_nat W < 2 ^ 64)%N -> forall fuel fuel' i k, fuel <= fuel' ->
  skip_zeros W fuel mask i = Some k -> skip_zeros_u W fuel' mask (N.of_nat i) = Done (N.of_nat k).
Proof.
  intros HW. induction fuel as [|fuel IH]; intros fuel' i k Hf E; cbn [skip_zeros] in E;
    (destruct (shl W 1 i) as [b|] eqn:Eb; [|done]); cbn [mbind option_bind] in E;
    pose proof (shl_bound _ _ _ Eb); apply shl_same in Eb.
  - destruct (N.land b mask =? 0)%N eqn:E0; [done|]. injection E as <-.
    destruct fuel'; cbn [skip_zeros_u]; by rewrite Eb, E0.
  - destruct fuel' as [|fuel']; [lia|]. cbn [skip_zeros_u]. rewrite Eb.
    destruct (N.land b mask =? 0)%N eqn:E0; [|by injection E as <-].
    apply (IH fuel') in E; [|lia]. rewrite N.mod_small by lia.
    by replace (N.of_nat i + 1)%N with (N.of_nat (i + 1)) by lia.
Qed.

Lemma skip_ones_same mask : forall fuel fuel' j k, fuel <= fuel' ->
  skip_ones W fuel mask j = Some k -> skip_ones_u W fuel' mask (N.of_nat j) = Done (N.of_nat k).
Proof.
  assert (Hc : forall j, (N.of_nat j <? N.of_nat W)%N = (j <? W)).
  { intros j. apply Bool.eq_iff_eq_true. rewrite N.ltb_lt, Nat.ltb_lt. lia. }
  induction fuel as [|fuel IH]; intros fuel' j k Hf E; cbn [skip_ones] in E.
  - destruct (j <? W) eqn:Ej; [|injection E as <-; destruct fuel'; cbn [skip_ones_u]; by rewrite Hc, Ej].
    destruct (shl W 1 j) as [b|] eqn:Eb; [|done]. cbn [mbind option_bind] in E. apply shl_same in Eb.
    destruct (N.land b mask =? 0)%N eqn:E0; [|done]. injection E as <-.
    destruct fuel'; cbn [skip_ones_u]; by rewrite Hc, Ej, Eb, E0.
  - destruct fuel' as [|fuel']; [lia|]. cbn [skip_ones_u]. rewrite Hc.
    destruct (j <? W) eqn:Ej; [|by injection E as <-].
    destruct (shl W 1 j) as [b|] eqn:Eb; [|done]. cbn [mbind option_bind] in E. apply shl_same in Eb. rewrite Eb.
    destruct (N.land b mask =? 0)%N eqn:E0; [by injection E as <-|].
    apply (IH fuel') in E; [|lia]. by replace (N.of_nat j + 1)%N with (N.of_nat (j + 1)) by lia.
Qed.

Lemma layout_same fuel : (N.of_nat W < 2 ^ 64)%N -> W <= fuel -> forall masks acc lay,
  layout W acc masks = Some lay -> layout_u W fuel acc masks = Done lay.
Proof.
  intros HW Hf. induction masks as [|mask masks IH]; intros acc lay E; cbn [layout layout_u] in *; [by injection E as <-|].
  destruct (skip_zeros W W mask 0) as [i|] eqn:Ei; [|done]. cbn [mbind option_bind] in E.
  destruct (skip_ones W W mask i) as [j|] eqn:Ej; [|done]. cbn [mbind option_bind] in E.
  destruct (layout W (acc + (j - i)) masks) as [rest|] eqn:Er; [|done]. cbn [mbind option_bind] in E. injection E as <-.
  apply (skip_zeros_same mask HW _ fuel) in Ei; [|done]. change (N.of_nat 0) with 0%N in Ei. rewrite Ei. cbn [and_then].
  apply (skip_ones_same mask _ fuel) in Ej; [|done]. rewrite Ej. cbn [and_then]. cbv zeta.
  replace (N.to_nat (N.of_nat j - N.of_nat i)) with (j - i) by lia.
  rewrite (IH _ _ Er). cbn [and_then]. by rewrite nat_N_Z.
Qed.

Lemma repeat_same f g n : (forall x y, f x = Some y -> g x = y) -> forall x y,
  repeat_res n f x = Some y -> Nat.iter n g x = y.
Proof.
  intros Hfg. induction n as [|n IH]; intros x y E; cbn [repeat_res] in E; [by injection E|].
  destruct (f x) as [z|] eqn:Ez; [|done]. cbn [mbind option_bind] in E. apply Hfg in Ez. apply IH in E. subst z y.
  by rewrite Nat.iter_succ_r.
Qed.

Lemma search_mask_same w m : make_search_mask W w = Some m -> make_search_mask_u W w = m.
Proof.
  unfold make_search_mask, make_search_mask_u. intros E.
  destruct (repeat_res w (ones_step W) 0%N) as [m1|] eqn:E1; [|done]. cbn [mbind option_bind] in E.
  apply (repeat_same _ (fun m => N.lor (shl_u W m 1) 1)) in E1.
  - rewrite E1. revert E. apply repeat_same. intros x y. exact (shl_same x 1 y).
  - intros x y. unfold ones_step. destruct (shl W x 1) as [s|] eqn:Es; [|done]. cbn [mbind option_bind].
    intros [= <-]. apply shl_same in Es. change (N.of_nat 1) with 1%N in Es. by rewrite Es.
Qed.

Lemma perm_new_same fuel d masks choice p : (N.of_nat W < 2 ^ 64)%N -> W <= fuel ->
  perm_new W d masks choice = Some p -> perm_new_u W fuel d masks choice = Done p.
Proof.
  intros HW Hf. unfold perm_new, perm_new_u. intros E.
  destruct (layout W 0 masks) as [lay|] eqn:El; [|done]. cbn [mbind option_bind] in E.
  rewrite (layout_same fuel HW Hf _ _ _ El). cbn [and_then].
  destruct (d <=? length lay); [|done]. cbv zeta in *.
  destruct (make_search_mask W _) as [sm|] eqn:Es; [|done]. cbn [mbind option_bind] in E. injection E as <-.
  by rewrite (search_mask_same _ _ Es).
Qed.

Lemma block_mask_same nb i m : block_mask W nb i = Some m -> block_mask_u W nb i = m.
Proof.
  unfold block_mask, block_mask_u. cbv zeta. generalize (seq (i * W / nb) ((i + 1) * W / nb - i * W / nb)).
  intros l. generalize 0%N. revert m. induction l as [|j l IH]; intros m a E; cbn [foldl] in *; [by injection E|].
  cbn [mbind option_bind] in E. destruct (shl W 1 j) as [b|] eqn:Eb; cbn [mbind option_bind] in E.
  - apply shl_same in Eb. rewrite Eb. by apply IH.
  - exfalso. clear -E. induction l as [|k l IH]; [done|]. by apply IH.
Qed.

Lemma blocks_same nb : block_mask_u W nb <$> seq 0 nb = blk W nb <$> seq 0 nb.
Proof.
  apply list_fmap_ext. intros k i Hi. apply elem_of_list_lookup_2, elem_of_seq in Hi.
  unfold blk. destruct (block_mask_interval W nb i ltac:(lia)) as (m & Em & _). rewrite Em. cbn [default]. by apply block_mask_same.
Qed.

Lemma each_same {A B} (f : A -> option B) (g : A -> progress B) : (forall x y, f x = Some y -> g x = Done y) ->
  forall l l', mapM f l = Some l' -> each g l = Done l'.
Proof.
  intros Hfg. induction l as [|x l IH]; intros l' E; cbn [mapM each] in *; [by injection E as <-|].
  destruct (f x) as [y|] eqn:Ey; [|done]. cbn in E. apply Hfg in Ey. rewrite Ey. cbn [and_then].
  destruct (mapM f l) as [ys|] eqn:El; [|done]. cbn in E. injection E as <-. by rewrite (IH ys).
Qed.

Lemma create_same room fuel nb d perms : (N.of_nat W < 2 ^ 64)%N -> W <= fuel ->
  perm_create W nb d = Some perms -> perm_create_u W room fuel nb d = Done perms.
Proof.
  intros HW Hf. unfold perm_create, perm_create_u. rewrite blocks_ok, blocks_same. cbn [mbind option_bind]. cbv zeta.
  destruct (d <=? nb); [|done]. apply each_same. intros c p. by apply perm_new_same.
Qed.

Lemma new_same `{Countable Id} room fuel nb d (m : sindex Id) : (N.of_nat W < 2 ^ 64)%N -> W <= fuel ->
  sindex_new W nb d = Some m -> sindex_new_u W room fuel nb d = Done m.
Proof.
  intros HW Hf. unfold sindex_new, sindex_new_u. intros E.
  destruct (perm_create W nb d) as [perms|] eqn:Ep; [|done]. cbn [mbind option_bind] in E.
  rewrite (create_same room fuel _ _ _ HW Hf Ep). cbn [and_then]. destruct perms; [done|]. by injection E as <-.
Qed.

Lemma permute_same p x r : permute W p x = Some r -> permute_u W p x = r.
Proof.
  unfold permute, permute_u. intros E.
  destruct (foldl _ (Some 0%N) (offsets_masks p)) as [v|] eqn:Ev; [|done]. cbn [mbind option_bind] in E. injection E as <-.
  f_equal. clear -Ev. revert Ev. generalize 0%N. induction (offsets_masks p) as [|om l IH]; intros a Ev; cbn [foldl] in *; [by injection Ev|].
  cbn [mbind option_bind] in Ev. destruct (move_block W x om) as [b|] eqn:Eb; cbn [mbind option_bind] in Ev.
  - rewrite <- (IH _ Ev). f_equal. f_equal. unfold move_block in Eb.
    destruct (0 <? om.2)%Z; [apply shl_same in Eb|apply shr_same in Eb]; rewrite <- Eb; f_equal; lia.
  - exfalso. clear -Ev. induction l as [|k l IH]; [done|]. by apply IH.
Qed.

(** *** The loop that does not end *)
Lemma skip_zeros_u_zero fuel : forall i, skip_zeros_u W fuel 0 i = Running.
Proof. induction fuel as [|fuel IH]; intros i; cbn [skip_zeros_u]; rewrite N.land_0_r; [done|]. apply IH. Qed.
Lemma skip_zeros_u_panic fuel mask : forall i, skip_zeros_u W fuel mask i ≠ Panicked.
Proof. induction fuel as [|fuel IH]; intros i; cbn [skip_zeros_u]; case_match; try done. Qed.
Lemma skip_ones_u_panic fuel mask : forall i, skip_ones_u W fuel mask i ≠ Panicked.
Proof. induction fuel as [|fuel IH]; intros i; cbn [skip_ones_u]; repeat case_match; try done. Qed.

Lemma layout_u_zero fuel masks : forall acc, 0%N ∈ masks -> layout_u W fuel acc masks = Running.
Proof.
  induction masks as [|mask masks IH]; intros acc Hin; [by apply elem_of_nil in Hin|]. cbn [layout_u].
  apply elem_of_cons in Hin as [<-|Hin]; [by rewrite skip_zeros_u_zero|].
  pose proof (skip_zeros_u_panic fuel mask 0) as Hz. destruct (skip_zeros_u W fuel mask 0) as [i| |]; [|done|done].
  cbn [and_then]. pose proof (skip_ones_u_panic fuel mask i) as Ho. destruct (skip_ones_u W fuel mask i) as [j| |]; [|done|done].
  cbn [and_then]. cbv zeta. by rewrite IH.
Qed.

Lemma create_hangs room fuel nb d : d <= nb -> W < nb -> perm_create_u W room fuel nb d = Running.
Proof.
  intros Hd Hlt. unfold perm_create_u. rewrite blocks_same. cbv zeta. rewrite (proj2 (Nat.leb_le _ _) Hd).
  destruct (empty_block W nb Hlt) as (i & Hi & E).
  assert (Hz : 0%N ∈ blk W nb <$> seq 0 nb).
  { apply elem_of_list_fmap. exists i. split; [|apply elem_of_seq; lia].
    apply bits_eq. intros j. rewrite (blk_interval W nb i Hi), bit_0. symmetry. apply bool_decide_false. lia. }
  assert (Hne := combinations_nonempty (nb - d) (blk W nb <$> seq 0 nb)).
  destruct (combinations (nb - d) (blk W nb <$> seq 0 nb)) as [|c cs].
  { exfalso. apply Hne; [rewrite fmap_length, seq_length; lia|done]. }
  cbn [each]. unfold perm_new_u. rewrite layout_u_zero; [done|]. by apply all_blocks_elem.
Qed.

Lemma new_hangs `{Countable Id} room fuel nb d : d <= nb -> W < nb -> sindex_new_u (Id := Id) W room fuel nb d = Running.
Proof. intros Hd Hlt. unfold sindex_new_u. by rewrite create_hangs. Qed.

Lemma new_panics `{Countable Id} room fuel nb d : nb < d -> sindex_new_u (Id := Id) W room fuel nb d = Panicked.
Proof.
  intros Hd. unfold sindex_new_u, perm_create_u. cbv zeta. rewrite (proj2 (Nat.leb_gt _ _) Hd). by destruct room.
Qed.
End Facts.
