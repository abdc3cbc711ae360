(** Facts about the hash of a shingle of words (C103). *)
From stdpp Require Import base list list_numbers.
From Coq Require Import NArith ZArith Lia.
From Verif Require Import Base MinHasher Fnv SpecFnv FnvFacts PyTokenizer PyHash SpecCollision SpecLowBits LowBitsFacts SpecWordHash.
Local Open Scope N_scope.

Lemma le_bytes_eight n : le_bytes 8 n = eight_bytes n.
Proof.
  unfold eight_bytes. cbn -[N.modulo N.div N.pow]. rewrite !N.div_div by done.
  change (256 ^ 0) with 1. rewrite N.div_1_r. reflexivity.
Qed.

Lemma words_write h ws :
  foldl (fun h w => fnv_write (fnv_write h w) [255]) h ws = fnv_write h (concat ((fun w => w ++ [255]) <$> ws)).
Proof.
  revert h. induction ws as [|w ws IH]; intros h; [done|]. cbn [foldl fmap list_fmap concat].
  by rewrite !write_app, IH.
Qed.
Lemma hash_words_stream ws : hash_words ws = fnv_write fnv_default (shingle_bytes ws).
Proof. unfold hash_words, shingle_bytes. by rewrite words_write, write_app, le_bytes_eight. Qed.

Lemma eight_bytes_ok n : bytes (eight_bytes n).
Proof.
  unfold bytes, eight_bytes. apply Forall_fmap, Forall_forall. intros i _. cbn.
  pose proof (N.mod_lt (n / 256 ^ N.of_nat i) 256). lia.
Qed.
Lemma eight_bytes_len n : length (eight_bytes n) = 8%nat.
Proof. by rewrite <- le_bytes_eight. Qed.

(** Reading the words back. *)
Lemma word_read u v s t : utf8_like u -> utf8_like v -> u ++ 255 :: s = v ++ 255 :: t -> u = v /\ s = t.
Proof.
  revert v. induction u as [|b u IH]; intros [|c v] Hu Hv E; cbn in E.
  - by injection E.
  - injection E as <- _. apply Forall_cons_1 in Hv as [Hv _]. lia.
  - injection E as -> _. apply Forall_cons_1 in Hu as [Hu _]. lia.
  - injection E as <- E. apply Forall_cons_1 in Hu as [_ Hu]. apply Forall_cons_1 in Hv as [_ Hv].
    destruct (IH v Hu Hv E) as [-> ->]. done.
Qed.
Lemma words_read us vs s t : length us = length vs -> Forall utf8_like us -> Forall utf8_like vs ->
  concat ((fun w => w ++ [255]) <$> us) ++ s = concat ((fun w => w ++ [255]) <$> vs) ++ t -> us = vs /\ s = t.
Proof.
  revert vs. induction us as [|u us IH]; intros [|v vs] Hl Hu Hv E; try done.
  apply Forall_cons_1 in Hu as [Hu Hus]. apply Forall_cons_1 in Hv as [Hv Hvs].
  cbn in E. rewrite <- !app_assoc in E. apply word_read in E as [-> E]; [|done..].
  apply IH in E as [-> ->]; [done|by injection Hl|done..].
Qed.
Lemma eight_inj n m : n < 2 ^ 64 -> m < 2 ^ 64 -> eight_bytes n = eight_bytes m -> n = m.
Proof.
  rewrite <- !le_bytes_eight. intros Hn Hm E.
  assert (Hv : forall k x y, x < 256 ^ N.of_nat k -> y < 256 ^ N.of_nat k -> le_bytes k x = le_bytes k y -> x = y).
  { clear. induction k as [|k IH]; intros x y Hx Hy E.
    - cbn in Hx, Hy. lia.
    - cbn [le_bytes] in E. injection E as E1 E2.
      rewrite Nat2N.inj_succ, N.pow_succ_r' in Hx, Hy.
      apply IH in E2; [|by apply N.div_lt_upper_bound..].
      rewrite (N.div_mod x 256), (N.div_mod y 256) by done. by rewrite E1, E2. }
  by apply (Hv 8%nat).
Qed.
Lemma shingle_read us vs s t : N.of_nat (length us) < 2 ^ 64 -> N.of_nat (length vs) < 2 ^ 64 ->
  Forall utf8_like us -> Forall utf8_like vs -> shingle_bytes us ++ s = shingle_bytes vs ++ t -> us = vs /\ s = t.
Proof.
  intros Hu Hv Hus Hvs E. unfold shingle_bytes in E. rewrite <- !app_assoc in E.
  apply app_inj_1 in E as [E1 E2]; [|by rewrite !eight_bytes_len].
  apply eight_inj in E1; [|done..]. apply words_read in E2; [done| |done..]. lia.
Qed.

(** ** Windows *)
Lemma stream_window p u v s : bytes u -> bytes v -> bytes s -> length u = length v -> (length u <= 4)%nat ->
  fnv_write fnv_default (p ++ u ++ s) = fnv_write fnv_default (p ++ v ++ s) -> u = v.
Proof.
  intros Hu Hv Hs Hl Hn E. apply (f_equal (low 40)) in E.
  rewrite !write_app, low_suffix in E by (done || lia).
  by apply (same_length 40 ltac:(lia) (fnv_write fnv_default p) 4 ltac:(reflexivity)) in E.
Qed.
Lemma stream_window_32 p u v s : bytes u -> bytes v -> bytes s -> length u = length v -> (length u <= 3)%nat ->
  fnv_write fnv_default (p ++ u ++ s) mod 2 ^ 32 = fnv_write fnv_default (p ++ v ++ s) mod 2 ^ 32 -> u = v.
Proof.
  intros Hu Hv Hs Hl Hn E. apply (low_eq 32 (fnv_write _ _) (fnv_write _ _) ltac:(lia)) in E.
  rewrite !write_app, low_suffix in E by (done || lia).
  by apply (same_length 32 ltac:(lia) (fnv_write fnv_default p) 3 ltac:(reflexivity)) in E.
Qed.

Lemma bytes_words ws : Forall bytes ws -> bytes (concat ((fun w => w ++ [255]) <$> ws)).
Proof.
  intros H. unfold bytes in *. induction H as [|w ws Hw H IH]; [by constructor|]. cbn [fmap list_fmap concat].
  apply Forall_app. split; [|done]. apply Forall_app. split; [done|by repeat constructor].
Qed.

(** A place inside a shingle. *)
Lemma shingle_place xs ys p u s : shingle_bytes (xs ++ (p ++ u ++ s) :: ys) =
  (eight_bytes (N.of_nat (length xs + S (length ys))) ++ concat ((fun w => w ++ [255]) <$> xs) ++ p) ++ u ++
  (s ++ 255 :: concat ((fun w => w ++ [255]) <$> ys)).
Proof.
  unfold shingle_bytes. rewrite app_length, fmap_app, concat_app. cbn [fmap list_fmap concat length].
  by rewrite <- !app_assoc.
Qed.
Lemma shingle_border xs ys p s t : shingle_bytes (xs ++ p :: (s ++ t) :: ys) =
  (eight_bytes (N.of_nat (length xs + S (S (length ys)))) ++ concat ((fun w => w ++ [255]) <$> xs) ++ p) ++ (255 :: s) ++
  (t ++ 255 :: concat ((fun w => w ++ [255]) <$> ys)).
Proof.
  unfold shingle_bytes. rewrite app_length, fmap_app, concat_app. cbn [fmap list_fmap concat length].
  rewrite <- !app_assoc. reflexivity.
Qed.
Lemma shingle_border' xs ys p s t : shingle_bytes (xs ++ (p ++ s) :: t :: ys) =
  (eight_bytes (N.of_nat (length xs + S (S (length ys)))) ++ concat ((fun w => w ++ [255]) <$> xs) ++ p) ++ (s ++ [255]) ++
  (t ++ 255 :: concat ((fun w => w ++ [255]) <$> ys)).
Proof.
  unfold shingle_bytes. rewrite app_length, fmap_app, concat_app. cbn [fmap list_fmap concat length].
  rewrite <- !app_assoc. reflexivity.
Qed.

(** ** Low bits *)
Lemma write_exact k h u v : k < 64 -> same_low k u v ->
  if Nat.odd (flips k u v) then agree_to k (fnv_write h u) (fnv_write h v)
  else fnv_write h u mod 2 ^ (k + 1) = fnv_write h v mod 2 ^ (k + 1).
Proof.
  intros Hk Huv. pose proof (write_low k h h u v ltac:(lia) eq_refl Huv) as Hl.
  pose proof (write_bit k h h u v Hk eq_refl Huv) as Hb. rewrite xorb_nilpotent, xorb_false_l in Hb.
  destruct (Nat.odd (flips k u v)).
  - apply agree_to_bits. split; [done|]. rewrite (cong_succ _ _ _ Hl). intros E. rewrite E, xorb_nilpotent in Hb. done.
  - apply (cong_succ _ _ _ Hl). by apply xorb_eq.
Qed.

Lemma case_refl u : case_variants u u.
Proof. induction u; constructor; [by left|done]. Qed.
Lemma changes_refl u : case_changes u u = 0%nat.
Proof.
  unfold case_changes. induction u as [|b u IH]; [done|]. cbn [zip]. rewrite filter_cons. cbn [fst snd].
  by rewrite decide_False by (intros Hn; by apply Hn).
Qed.
Lemma changes_app u v u' v' : length u = length v ->
  case_changes (u ++ u') (v ++ v') = (case_changes u v + case_changes u' v')%nat.
Proof.
  intros Hl. unfold case_changes. rewrite zip_with_app by done. by rewrite filter_app, app_length.
Qed.
Lemma shingle_case_bytes us vs : shingle_case us vs ->
  case_variants (shingle_bytes us) (shingle_bytes vs) /\
  case_changes (shingle_bytes us) (shingle_bytes vs) = shingle_changes us vs.
Proof.
  intros Huv. unfold shingle_bytes. rewrite (Forall2_length _ _ _ Huv).
  set (e := eight_bytes _).
  assert (Hc : case_variants (concat ((fun w => w ++ [255]) <$> us)) (concat ((fun w => w ++ [255]) <$> vs)) /\
    case_changes (concat ((fun w => w ++ [255]) <$> us)) (concat ((fun w => w ++ [255]) <$> vs)) = shingle_changes us vs).
  { clear e. induction Huv as [|u v us vs Hu Huv [IH1 IH2]]; [by split; [constructor|]|].
    cbn [fmap list_fmap concat]. split.
    - apply Forall2_app; [|done]. apply Forall2_app; [done|apply case_refl].
    - rewrite !changes_app by (rewrite ?app_length, (Forall2_length _ _ _ Hu); done).
      rewrite changes_refl, IH2. unfold shingle_changes. cbn. lia. }
  destruct Hc as [H1 H2]. split; [by apply Forall2_app; [apply case_refl|]|].
  by rewrite changes_app, changes_refl, H2.
Qed.

(** ** Parity *)
Lemma odd_app u v : Nat.odd (odd_ones (u ++ v)) = xorb (Nat.odd (odd_ones u)) (Nat.odd (odd_ones v)).
Proof. unfold odd_ones. by rewrite filter_app, app_length, Nat.odd_add. Qed.
Lemma words_odd h ws : N.odd (fnv_write h (concat ((fun w => w ++ [255]) <$> ws))) =
  xorb (N.odd h) (xorb (Nat.odd (length ws)) (Nat.odd (odd_ones (concat ws)))).
Proof.
  rewrite write_odd. f_equal. change (Nat.odd (odd_ones (concat ((fun w => w ++ [255]) <$> ws))) =
    xorb (Nat.odd (length ws)) (Nat.odd (odd_ones (concat ws)))).
  induction ws as [|w ws IH]; [done|]. cbn [fmap list_fmap concat length]. rewrite !odd_app, IH.
  change (Nat.odd (odd_ones [255])) with true. rewrite Nat.odd_succ, <- Nat.negb_odd.
  by destruct (Nat.odd (odd_ones w)), (Nat.odd (length ws)), (Nat.odd (odd_ones (concat ws))).
Qed.
Lemma shingle_odd ws : N.odd (hash_words ws) =
  negb (xorb (Nat.odd (odd_ones (eight_bytes (N.of_nat (length ws)))))
       (xorb (Nat.odd (length ws)) (Nat.odd (odd_ones (concat ws))))).
Proof.
  rewrite hash_words_stream. unfold shingle_bytes. rewrite write_app, words_odd, write_odd.
  change (N.odd fnv_default) with true. unfold odd_ones. set (a := Nat.odd (length (filter _ (eight_bytes _)))).
  set (b := Nat.odd (length (filter _ (concat ws)))). by destruct a, b, (Nat.odd (length ws)).
Qed.
Lemma odd_of_nat n : N.odd (N.of_nat n) = Nat.odd n.
Proof.
  induction n as [|n IH]; [done|]. rewrite Nat2N.inj_succ, N.odd_succ, Nat.odd_succ.
  by rewrite <- N.negb_odd, <- Nat.negb_odd, IH.
Qed.
Lemma small_eight n : (n < 256)%nat -> Nat.odd (odd_ones (eight_bytes (N.of_nat n))) = Nat.odd n.
Proof.
  intros Hn. rewrite <- le_bytes_eight. cbn -[N.modulo N.div odd_ones].
  rewrite !(N.div_small (N.of_nat n)) by lia. rewrite !N.div_0_l, !N.mod_0_l by done.
  rewrite N.mod_small by lia. unfold odd_ones. rewrite filter_cons.
  rewrite <- (odd_of_nat n).
  destruct (decide (N.odd (N.of_nat n) = true)) as [E|E]; [by rewrite E|].
  apply not_true_is_false in E. by rewrite E.
Qed.
(** The two parities of the number of words cancel. *)
Lemma shingle_odd_small ws : (length ws < 256)%nat ->
  N.odd (hash_words ws) = negb (Nat.odd (odd_ones (concat ws))).
Proof.
  intros Hn. rewrite shingle_odd, small_eight by done.
  by destruct (Nat.odd (length ws)), (Nat.odd (odd_ones (concat ws))).
Qed.
