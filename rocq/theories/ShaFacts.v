(** The SHA-1 of the model is the only digest FIPS 180-4 allows. *)
From stdpp Require Import base list.
From Coq Require Import NArith Lia.
From Verif Require Import Base Digests SpecDigests RngStream SipFacts.
Local Open Scope N_scope.

(** ** Bytes *)
Lemma big_snoc l b : big (l ++ [b]) = big l * 256 + b.
Proof. unfold big. rewrite reverse_app. cbn [reverse rev_append app]. change (little (b :: reverse l)) with (b + 256 * little (reverse l)). lia. Qed.

Lemma be_big l : be_number l = big l.
Proof.
  induction l as [|b l IH] using rev_ind; [done|]. unfold be_number in *. rewrite foldl_app, IH, big_snoc. done.
Qed.

Lemma be_bytes_length n x : length (be_bytes n x) = n.
Proof. revert x. induction n as [|n IH]; intros x; [done|]. cbn [be_bytes]. rewrite app_length, IH. cbn. lia. Qed.

Lemma be_bytes_ok n x : is_bytes (be_bytes n x).
Proof.
  revert x. induction n as [|n IH]; intros x; [constructor|]. cbn [be_bytes]. apply Forall_app. split; [apply IH|].
  constructor; [by apply N.mod_lt|constructor].
Qed.

Lemma big_be n x : big (be_bytes n x) = x mod 256 ^ N.of_nat n.
Proof.
  revert x. induction n as [|n IH]; intros x.
  - change (256 ^ N.of_nat 0) with 1. by rewrite N.mod_1_r.
  - cbn [be_bytes]. rewrite big_snoc, IH, Nat2N.inj_succ, N.pow_succ_r by lia.
    rewrite N.mod_mul_r by (try apply N.pow_nonzero; lia). lia.
Qed.

Lemma be_of_big l : is_bytes l -> be_bytes (length l) (big l) = l.
Proof.
  induction l as [|b l IH] using rev_ind; intros H; [done|]. apply Forall_app in H as [Hl Hb].
  apply Forall_cons in Hb as [Hb _]. rewrite app_length, Nat.add_comm. cbn [length Nat.add be_bytes]. rewrite big_snoc.
  rewrite N.div_add_l by lia. rewrite (N.div_small b) by done. rewrite N.add_0_r, (IH Hl).
  rewrite N.add_comm, N.mod_add by lia. by rewrite N.mod_small.
Qed.

Lemma big_lt l : is_bytes l -> big l < 256 ^ N.of_nat (length l).
Proof. intros H. unfold big. rewrite <- (reverse_length l). apply little_lt. by apply Forall_reverse. Qed.

(** ** Padding *)
Lemma pad_ok msg : sha_padded msg (sha_pad msg).
Proof.
  pose proof (Nat.mod_upper_bound (length msg) 64 ltac:(lia)) as Hm.
  exists ((119 - length msg mod 64) mod 64)%nat, (be_bytes 8 (8 * N.of_nat (length msg) mod 2 ^ 64)).
  split; [done|]. split; [by apply Nat.mod_upper_bound|]. split; [apply be_bytes_length|]. split; [apply be_bytes_ok|]. split.
  - rewrite big_be. change (256 ^ N.of_nat 8) with (2 ^ 64). by rewrite N.mod_mod.
  - unfold sha_pad. rewrite !app_length, replicate_length, be_bytes_length. cbn [length].
    pose proof (Nat.div_mod (length msg) 64 ltac:(lia)) as Hd. apply Nat.mod_divides; [lia|].
    set (r := (length msg mod 64)%nat) in *. set (q := (length msg / 64)%nat) in *.
    pose proof (Nat.div_mod (119 - r) 64 ltac:(lia)) as Hd2. 
    exists (q + (119 - r) / 64 * 0 + (128 - 64 * ((119 - r) / 64)) / 64)%nat.
    assert (Hc : ((119 - r) / 64 = 0 \/ (119 - r) / 64 = 1)%nat).
    { destruct (le_lt_dec 64 (119 - r)).
      - right. symmetry. apply (Nat.div_unique _ _ _ (119 - r - 64)); lia.
      - left. apply Nat.div_small. lia. }
    destruct Hc as [Hc|Hc]; rewrite Hc in *.
    + change ((128 - 64 * 0) / 64)%nat with 2%nat. lia.
    + change ((128 - 64 * 1) / 64)%nat with 1%nat. lia.
Qed.

Lemma pad_unique msg p : sha_padded msg p -> p = sha_pad msg.
Proof.
  intros (k & l & -> & Hk & Hl & Hb & Hv & Hd).
  destruct (pad_ok msg) as (k' & l' & E & Hk' & Hl' & Hb' & Hv' & Hd'). rewrite E in Hd' |- *.
  assert (k = k') as <-.
  { rewrite !app_length, !replicate_length, Hl in Hd. rewrite !app_length, !replicate_length, Hl' in Hd'.
    cbn [length] in *. apply Nat.mod_divides in Hd as [c Hc]; [|lia]. apply Nat.mod_divides in Hd' as [c' Hc']; [|lia]. lia. }
  do 3 f_equal. rewrite <- (be_of_big l Hb), <- (be_of_big l' Hb'). by rewrite Hl, Hl', Hv, Hv'.
Qed.

(** ** Words *)
Definition word (x : N) : Prop := x < 2 ^ 32.

Lemma bits_word x : (forall i, 32 <= i -> N.testbit x i = false) -> word x.
Proof.
  intros H. unfold word. assert (E : x mod 2 ^ 32 = x).
  { apply N.bits_inj. intros i. destruct (N.lt_ge_cases i 32) as [Hi|Hi].
    - by rewrite N.mod_pow2_bits_low.
    - rewrite N.mod_pow2_bits_high by done. by rewrite H. }
  rewrite <- E. apply N.mod_lt. by apply N.pow_nonzero.
Qed.

Lemma word_bits x i : word x -> 32 <= i -> N.testbit x i = false.
Proof. intros Hx Hi. rewrite <- (N.mod_small x (2 ^ 32)) by done. by apply N.mod_pow2_bits_high. Qed.

Lemma word_eq x y : word x -> word y -> (forall i, i < 32 -> N.testbit x i = N.testbit y i) -> x = y.
Proof.
  intros Hx Hy H. apply N.bits_inj. intros i. destruct (N.lt_ge_cases i 32) as [Hi|Hi]; [by apply H|].
  by rewrite !word_bits.
Qed.

Lemma not32_bit x i : word x -> i < 32 -> N.testbit (not32 x) i = negb (N.testbit x i).
Proof.
  intros Hx Hi. unfold not32. change (2 ^ 32 - 1) with (N.ones 32). rewrite <- N.lnot_sub_low.
  - by apply N.lnot_spec_low.
  - destruct (N.eq_0_gt_0_cases x) as [->|H0]; [done|]. by apply N.log2_lt_pow2.
Qed.

Lemma not32_word x : word (not32 x).
Proof. unfold word, not32. assert (0 < 2 ^ 32) by done. lia. Qed.

Definition sha_f (t : nat) : N -> N -> N -> N :=
  if (t <? 20)%nat then sha_choose else if ((40 <=? t) && (t <? 60))%nat then sha_majority else sha_parity.

Lemma sha_f_ok t x y z : word x -> word y -> word z -> round_function t x y z (sha_f t x y z).
Proof.
  intros Hx Hy Hz. unfold round_function, sha_f. split.
  - apply bits_word. intros i Hi. destruct (t <? 20)%nat; [|destruct ((40 <=? t) && (t <? 60))%nat].
    + unfold sha_choose. rewrite N.lxor_spec, !N.land_spec, (word_bits x), (word_bits (not32 x)) by (done || apply not32_word). done.
    + unfold sha_majority. rewrite !N.lxor_spec, !N.land_spec, (word_bits x), (word_bits y) by done. done.
    + unfold sha_parity. rewrite !N.lxor_spec, (word_bits x), (word_bits y), (word_bits z) by done. done.
  - intros i Hi. cbv zeta. destruct (t <? 20)%nat; [|destruct ((40 <=? t) && (t <? 60))%nat].
    + unfold sha_choose. rewrite N.lxor_spec, !N.land_spec, not32_bit by done.
      by destruct (N.testbit x i), (N.testbit y i), (N.testbit z i).
    + unfold sha_majority. rewrite !N.lxor_spec, !N.land_spec.
      by destruct (N.testbit x i), (N.testbit y i), (N.testbit z i).
    + unfold sha_parity. rewrite !N.lxor_spec. by destruct (N.testbit x i), (N.testbit y i), (N.testbit z i).
Qed.

Lemma round_function_unique t x y z f f' : round_function t x y z f -> round_function t x y z f' -> f = f'.
Proof. intros [H1 H2] [H3 H4]. apply word_eq; [done|done|]. intros i Hi. by rewrite (H2 i Hi), (H4 i Hi). Qed.

(** ** The schedule *)
Lemma expand_spec n : forall w, length w = 16%nat -> Forall word w ->
  length (sha_expand n w) = n /\ Forall word (sha_expand n w) /\
  forall j, (j < n)%nat -> let L := w ++ sha_expand n w in
    nth (16 + j) L 0 = turn 32 (N.lxor (nth (13 + j) L 0) (N.lxor (nth (8 + j) L 0) (N.lxor (nth (2 + j) L 0) (nth j L 0)))) 1.
Proof.
  induction n as [|n IH]; intros w Hl Hw; [split; [done|split; [constructor|lia]]|].
  cbn [sha_expand]. cbv zeta.
  assert (Hn : forall i, word (nth i w 0)).
  { intros i. destruct (le_lt_dec (length w) i) as [Hi|Hi]; [rewrite nth_overflow by done; done|].
    rewrite Forall_lookup in Hw. destruct (lookup_lt_is_Some_2 w i Hi) as [x Ex]. rewrite (nth_lookup_Some w i 0 x Ex). by apply (Hw i). }
  assert (Ha : N.lxor (N.lxor (nth 13 w 0) (nth 8 w 0)) (N.lxor (nth 2 w 0) (nth 0 w 0)) < 2 ^ 32)
    by (repeat apply lxor_lt; apply Hn).
  destruct (rot_turn 32 _ 1 ltac:(lia) Ha) as [E Hx]. rewrite E. clear E Ha. rewrite N.lxor_assoc in Hx |- *.
  set (x := turn 32 _ 1) in *.
  destruct w as [|w0 w']; [discriminate|]. cbn [tail].
  assert (Hl' : length (w' ++ [x]) = 16%nat) by (rewrite app_length; cbn [length] in *; lia).
  apply Forall_cons in Hw as [Hw0 Hw'].
  assert (Hw1 : Forall word (w' ++ [x])) by (apply Forall_app; split; [done|constructor; [exact Hx|constructor]]).
  destruct (IH _ Hl' Hw1) as (L1 & L2 & L3). split; [cbn [length]; by rewrite L1|]. split; [by constructor|].
  intros j Hj. destruct j as [|j].
  - rewrite (app_nth2 _ _ 0 (n := (16 + 0)%nat)) by (rewrite Hl; lia). rewrite Hl.
    rewrite !(app_nth1 (w0 :: w')) by (rewrite Hl; lia). done.
  - specialize (L3 j ltac:(lia)). cbv zeta in L3. rewrite <- app_assoc in L3.
    replace (16 + S j)%nat with (S (16 + j)) by lia. replace (13 + S j)%nat with (S (13 + j)) by lia.
    replace (8 + S j)%nat with (S (8 + j)) by lia. replace (2 + S j)%nat with (S (2 + j)) by lia.
    change ((w0 :: w') ++ x :: sha_expand n (w' ++ [x])) with (w0 :: (w' ++ [x] ++ sha_expand n (w' ++ [x]))).
    cbn [nth]. exact L3.
Qed.

Definition schedule (block : list N) (t : nat) : N := nth t (block ++ sha_expand 64 block) 0.

Lemma schedule_ok block : length block = 16%nat -> Forall word block ->
  sha_schedule block (schedule block) /\ forall t, word (schedule block t).
Proof.
  intros Hl Hw. destruct (expand_spec 64 block Hl Hw) as (L1 & L2 & L3). split; [split|].
  - intros t Ht. unfold schedule. rewrite app_nth1 by lia.
    destruct (lookup_lt_is_Some_2 block t ltac:(lia)) as [x Ex]. rewrite (nth_lookup_Some _ _ _ _ Ex). exact Ex.
  - intros t Ht. specialize (L3 (t - 16)%nat ltac:(lia)). cbv zeta in L3. unfold schedule.
    replace (16 + (t - 16))%nat with t in L3 by lia. replace (13 + (t - 16))%nat with (t - 3)%nat in L3 by lia.
    replace (8 + (t - 16))%nat with (t - 8)%nat in L3 by lia. replace (2 + (t - 16))%nat with (t - 14)%nat in L3 by lia.
    exact L3.
  - intros t. unfold schedule. assert (Hf : Forall word (block ++ sha_expand 64 block)) by (apply Forall_app; split; [exact Hw|exact L2]).
    set (L := block ++ sha_expand 64 block) in *. clearbody L. clear - Hf.
    destruct (le_lt_dec (length L) t) as [Hi|Hi]; [rewrite nth_overflow by done; done|].
    rewrite Forall_lookup in Hf. destruct (lookup_lt_is_Some_2 L t Hi) as [x Ex]. rewrite (nth_lookup_Some L t 0 x Ex). by apply (Hf t).
Qed.

Lemma schedule_unique block W W' : sha_schedule block W -> sha_schedule block W' -> forall t, (t < 80)%nat -> W t = W' t.
Proof.
  intros [H1 H2] [H3 H4]. induction t as [t IH] using lt_wf_ind. intros Ht.
  destruct (le_lt_dec 16 t) as [Hc|Hc].
  - rewrite H2, H4 by lia. by rewrite !IH by lia.
  - specialize (H1 t Hc). specialize (H3 t Hc). congruence.
Qed.

(** ** The rounds *)
Definition words_ok (s : words5) : Prop := let '(a, b, c, d, e) := s in word a /\ word b /\ word c /\ word d /\ word e.

Fixpoint run (W : nat -> N) (s : words5) (t : nat) : words5 :=
  match t with O => s | S t' => sha_round (sha_f t') (round_constant t') (run W s t') (W t') end.

Lemma sum_mod M a f e k w : M <> 0 -> ((((a + f) mod M + e) mod M + k) mod M + w) mod M = (a + f + e + k + w) mod M.
Proof.
  intros HM. rewrite <- (N.add_mod_idemp_l (a + f + e + k)), <- (N.add_mod_idemp_l (a + f + e)), <- (N.add_mod_idemp_l (a + f)) by done.
  done.
Qed.

Lemma round_spec t s w : words_ok s ->
  (exists a b c d e f, s = (a, b, c, d, e) /\ round_function t b c d f /\
    sha_round (sha_f t) (round_constant t) s w = ((turn 32 a 5 + f + e + round_constant t + w) mod 2 ^ 32, a, turn 32 b 30, c, d)) /\
  words_ok (sha_round (sha_f t) (round_constant t) s w).
Proof.
  destruct s as [[[[a b] c] d] e]. intros (Ha & Hb & Hc & Hd & He). unfold sha_round.
  destruct (rot_turn 32 a 5 ltac:(lia) Ha) as [-> Ha']. destruct (rot_turn 32 b 30 ltac:(lia) Hb) as [-> Hb'].
  assert (E : forall f, add_w 32 (add_w 32 (add_w 32 (add_w 32 (turn 32 a 5) f) e) (round_constant t)) w =
    (turn 32 a 5 + f + e + round_constant t + w) mod 2 ^ 32).
  { intros f. unfold add_w. apply sum_mod. by apply N.pow_nonzero. }
  rewrite E. split.
  - exists a, b, c, d, e, (sha_f t b c d). split; [done|]. split; [by apply sha_f_ok|]. done.
  - split; [|split; [exact Ha|split; [exact Hb'|split; [exact Hc|exact Hd]]]]. apply N.mod_lt. by apply N.pow_nonzero.
Qed.

Lemma run_ok W s t : words_ok s -> words_ok (run W s t).
Proof. intros Hs. induction t as [|t IH]; [done|]. cbn [run]. apply (round_spec t _ (W t) IH). Qed.

Lemma run_rounds W s : words_ok s -> sha_rounds W (run W s).
Proof.
  intros Hs t Ht. rewrite Nat.add_1_r. cbn [run]. exact (proj1 (round_spec t _ (W t) (run_ok W s t Hs))).
Qed.

Lemma rounds_unique W W' S s : words_ok s -> (forall t, (t < 80)%nat -> W t = W' t) -> sha_rounds W S -> S 0%nat = s ->
  forall t, (t <= 80)%nat -> S t = run W' s t.
Proof.
  intros Hs HW HS H0. induction t as [|t IH]; intros Ht; [done|].
  destruct (HS t ltac:(lia)) as (a & b & c & d & e & f & E1 & E2 & E3). rewrite Nat.add_1_r in E3. rewrite E3.
  rewrite (IH ltac:(lia)) in E1. cbn [run].
  destruct (round_spec t _ (W' t) (run_ok W' s t Hs)) as [(a' & b' & c' & d' & e' & f' & F1 & F2 & F3) _].
  rewrite F3. rewrite F1 in E1. injection E1 as -> -> -> -> ->. rewrite (round_function_unique _ _ _ _ _ _ E2 F2).
  by rewrite (HW t) by lia.
Qed.

Lemma segment f k w s m n : (m + n <= length w)%nat ->
  (forall t, (m <= t < m + n)%nat -> sha_f t = f /\ round_constant t = k) ->
  foldl (sha_round f k) (run (fun t => nth t w 0) s m) (take n (drop m w)) = run (fun t => nth t w 0) s (m + n).
Proof.
  intros Hl. induction n as [|n IH]; intros H; [by rewrite take_0, Nat.add_0_r|].
  destruct (lookup_lt_is_Some_2 w (m + n) ltac:(lia)) as [x Ex].
  rewrite (take_S_r _ _ x) by (by rewrite lookup_drop). rewrite foldl_app, IH by (try intros; try apply H; lia).
  rewrite Nat.add_succ_r. cbn [foldl run]. destruct (H (m + n)%nat ltac:(lia)) as [-> ->]. by rewrite (nth_lookup_Some _ _ _ _ Ex).
Qed.

Lemma compress_run s block : length block = 16%nat -> Forall word block ->
  sha_compress s block = (let '(a, b, c, d, e) := s in let '(a', b', c', d', e') := run (schedule block) s 80 in
    (plus 32 a a', plus 32 b b', plus 32 c c', plus 32 d d', plus 32 e e')).
Proof.
  intros Hl Hw. destruct (expand_spec 64 block Hl Hw) as (L1 & _ & _).
  assert (HL : length (block ++ sha_expand 64 block) = 80%nat) by (rewrite app_length; lia).
  unfold sha_compress. change (schedule block) with (fun t => nth t (block ++ sha_expand 64 block) 0).
  set (w := block ++ sha_expand 64 block) in *. clearbody w.
  pose proof (segment sha_choose 1518500249 w s 0 20) as S1. pose proof (segment sha_parity 1859775393 w s 20 20) as S2.
  pose proof (segment sha_majority 2400959708 w s 40 20) as S3. pose proof (segment sha_parity 3395469782 w s 60 20) as S4.
  change (run (fun t => nth t w 0) s 0) with s in S1. rewrite drop_0 in S1. change (0 + 20)%nat with 20%nat in S1.
  change (20 + 20)%nat with 40%nat in S2. change (40 + 20)%nat with 60%nat in S3. change (60 + 20)%nat with 80%nat in S4. rewrite S1.
  2: lia.
  2: { intros t Ht. unfold sha_f, round_constant. rewrite (proj2 (Nat.ltb_lt t 20)) by lia. split; reflexivity. }
  rewrite S2.
  2: lia.
  2: { intros t Ht. unfold sha_f, round_constant. rewrite (proj2 (Nat.ltb_ge t 20)), (proj2 (Nat.leb_gt 40 t)), (proj2 (Nat.ltb_lt t 40)) by lia. split; reflexivity. }
  rewrite S3.
  2: lia.
  2: { intros t Ht. unfold sha_f, round_constant.
       rewrite (proj2 (Nat.ltb_ge t 20)), (proj2 (Nat.leb_le 40 t)), (proj2 (Nat.ltb_ge t 40)), (proj2 (Nat.ltb_lt t 60)) by lia. split; reflexivity. }
  rewrite S4.
  2: lia.
  2: { intros t Ht. unfold sha_f, round_constant.
       rewrite (proj2 (Nat.ltb_ge t 20)), (proj2 (Nat.leb_le 40 t)), (proj2 (Nat.ltb_ge t 40)), (proj2 (Nat.ltb_ge t 60)) by lia. split; reflexivity. }
  reflexivity.
Qed.

Lemma block_spec s block : words_ok s -> length block = 16%nat -> Forall word block ->
  words_ok (sha_compress s block) /\ forall s', sha_block s block s' <-> s' = sha_compress s block.
Proof.
  intros Hs Hl Hw. rewrite (compress_run s block Hl Hw). destruct (schedule_ok block Hl Hw) as [Hsch _].
  assert (K : forall s', sha_block s block s' <-> s' = (let '(a, b, c, d, e) := s in let '(a', b', c', d', e') := run (schedule block) s 80 in
    (plus 32 a a', plus 32 b b', plus 32 c c', plus 32 d d', plus 32 e e'))).
  { intros s'. split.
    - intros (W & S & HW & H0 & HS & H). pose proof (schedule_unique block W _ HW Hsch) as EW.
      rewrite (rounds_unique W (schedule block) S s Hs EW HS H0 80 ltac:(lia)) in H.
      destruct s as [[[[a b] c] d] e]. destruct (run (schedule block) (a, b, c, d, e) 80) as [[[[a' b'] c'] d'] e']. exact H.
    - intros ->. exists (schedule block), (run (schedule block) s). split; [done|]. split; [done|]. split; [by apply run_rounds|].
      destruct s as [[[[a b] c] d] e]. destruct (run (schedule block) (a, b, c, d, e) 80) as [[[[a' b'] c'] d'] e']. done. }
  split; [|exact K]. destruct s as [[[[a b] c] d] e]. destruct (run (schedule block) (a, b, c, d, e) 80) as [[[[a' b'] c'] d'] e'].
  repeat split; apply (plus_lt 32).
Qed.

(** ** Blocks *)
Lemma take_drop_seq {A} (f : nat -> A) n i k : (i + k <= n)%nat ->
  take k (drop i (f <$> seq 0 n)) = (fun j => f (i + j)%nat) <$> seq 0 k.
Proof.
  intros H. apply list_eq. intros j. destruct (le_lt_dec k j) as [Hj|Hj].
  - rewrite lookup_take_ge by done. symmetry. apply lookup_ge_None. rewrite fmap_length, seq_length. done.
  - rewrite lookup_take, lookup_drop, !list_lookup_fmap, !lookup_seq_lt by lia. done.
Qed.

Definition sha_blocks (p : list N) : list (list N) := (fun i => sha_word p i <$> seq 0 16) <$> seq 0 (length p / 64).

Lemma blocks_eq p : (length p mod 64 = 0)%nat ->
  let words := be_number <$> pieces (length p) 4 p in pieces (length words) 16 words = sha_blocks p.
Proof.
  intros H. apply Nat.mod_divides in H as [c Hc]; [|lia]. cbv zeta.
  rewrite (pieces_seq 4 (16 * c)) by lia. rewrite <- list_fmap_compose.
  rewrite (pieces_seq 16 c) by (try rewrite fmap_length, seq_length; lia).
  unfold sha_blocks. rewrite Hc, (Nat.mul_comm 64 c), Nat.div_mul by lia.
  apply list_fmap_ext. intros k i Hi. apply lookup_seq in Hi as [-> Hi]. cbn [Nat.add].
  rewrite take_drop_seq by lia. apply list_fmap_ext. intros k' j Hj. unfold compose, sha_word. rewrite be_big.
  do 3 f_equal. lia.
Qed.

Lemma sha_word_ok p i j : is_bytes p -> word (sha_word p i j).
Proof.
  intros H. unfold word, sha_word. set (l := take 4 (drop (64 * i + 4 * j) p)).
  assert (Hl : is_bytes l) by (by apply is_bytes_take, is_bytes_drop). pose proof (big_lt l Hl) as Hb.
  eapply N.lt_le_trans; [exact Hb|]. change (2 ^ 32) with (256 ^ 4). apply N.pow_le_mono_r; [lia|].
  assert (length l <= 4)%nat by (unfold l; rewrite take_length; lia). lia.
Qed.

Lemma blocks_run p (H : nat -> words5) s : is_bytes p -> words_ok s -> H 0%nat = s ->
  (forall i, (i < length p / 64)%nat -> sha_block (H i) (sha_word p i <$> seq 0 16) (H (i + 1)%nat)) ->
  forall n, (n <= length p / 64)%nat -> H n = foldl sha_compress s (take n (sha_blocks p)) /\ words_ok (H n).
Proof.
  intros Hp Hs H0 HH. induction n as [|n IH]; intros Hn; [by rewrite take_0, H0|].
  destruct (IH ltac:(lia)) as [E1 E2].
  rewrite (take_S_r _ _ (sha_word p n <$> seq 0 16)).
  2: { unfold sha_blocks. rewrite list_lookup_fmap, lookup_seq_lt by lia. done. }
  rewrite foldl_app, <- E1. cbn [foldl].
  destruct (block_spec (H n) (sha_word p n <$> seq 0 16) E2) as [B1 B2].
  { by rewrite fmap_length, seq_length. }
  { apply Forall_fmap, Forall_forall. intros j _. by apply sha_word_ok. }
  specialize (HH n ltac:(lia)). rewrite Nat.add_1_r in HH. apply B2 in HH. rewrite HH. done.
Qed.

Lemma start_ok : words_ok sha_start.
Proof. repeat split. Qed.

Lemma sha_pad_ok msg : is_bytes msg -> is_bytes (sha_pad msg).
Proof.
  intros H. unfold sha_pad. apply Forall_app. split; [done|]. apply Forall_app. split; [by apply Forall_singleton|].
  apply Forall_app. split; [by apply Forall_replicate|apply be_bytes_ok].
Qed.

Lemma sha_digest msg : is_bytes msg ->
  let final := foldl sha_compress sha_start (sha_blocks (sha_pad msg)) in
  sha1 msg = (let '(a, b, c, d, e) := final in be_bytes 4 a ++ be_bytes 4 b ++ be_bytes 4 c ++ be_bytes 4 d ++ be_bytes 4 e).
Proof.
  intros H. cbv zeta. unfold sha1. destruct (pad_ok msg) as (_ & _ & _ & _ & _ & _ & _ & Hd).
  by rewrite (blocks_eq _ Hd).
Qed.

Lemma digest_parts a b c d e : words_ok (a, b, c, d, e) ->
  let r := be_bytes 4 a ++ be_bytes 4 b ++ be_bytes 4 c ++ be_bytes 4 d ++ be_bytes 4 e in
  length r = 20%nat /\ is_bytes r /\
  (a, b, c, d, e) = (big (take 4 r), big (take 4 (drop 4 r)), big (take 4 (drop 8 r)), big (take 4 (drop 12 r)), big (drop 16 r)).
Proof.
  intros (Ha & Hb & Hc & Hd & He). cbv zeta.
  assert (K : forall x, word x -> big (be_bytes 4 x) = x).
  { intros x Hx. rewrite big_be. change (256 ^ N.of_nat 4) with (2 ^ 32). by apply N.mod_small. }
  pose proof (be_bytes_length 4) as L. split; [by rewrite !app_length, !L|]. split.
  { do 4 (apply Forall_app; split; [apply be_bytes_ok|]). apply be_bytes_ok. }
  assert (D : forall n x r, drop (4 + n) (be_bytes 4 x ++ r) = drop n r).
  { intros n x r. rewrite drop_app_ge by (rewrite L; lia). rewrite L. f_equal. lia. }
  assert (T : forall x r, big (take 4 (be_bytes 4 x ++ r)) = big (be_bytes 4 x)).
  { intros x r. rewrite take_app_le by (by rewrite L). by rewrite take_ge by (by rewrite L). }
  change (drop 4) with (@drop N (4 + 0)). change (drop 8) with (@drop N (4 + (4 + 0))).
  change (drop 12) with (@drop N (4 + (4 + (4 + 0)))). change (drop 16) with (@drop N (4 + (4 + (4 + (4 + 0))))).
  rewrite !D, !drop_0, !T, !K by done. done.
Qed.

Lemma digest_unique d : length d = 20%nat -> is_bytes d ->
  d = be_bytes 4 (big (take 4 d)) ++ be_bytes 4 (big (take 4 (drop 4 d))) ++ be_bytes 4 (big (take 4 (drop 8 d))) ++
    be_bytes 4 (big (take 4 (drop 12 d))) ++ be_bytes 4 (big (drop 16 d)).
Proof.
  intros Hl Hd. assert (K : forall n, (n <= 16)%nat -> be_bytes 4 (big (take 4 (drop n d))) = take 4 (drop n d)).
  { intros n Hn. pose proof (be_of_big (take 4 (drop n d)) ltac:(by apply is_bytes_take, is_bytes_drop)) as E.
    rewrite take_length, drop_length, Hl in E. replace (4 `min` (20 - n))%nat with 4%nat in E by lia. exact E. }
  pose proof (K 0%nat ltac:(lia)) as K0. rewrite drop_0 in K0. rewrite K0, !K by lia.
  pose proof (K 16%nat ltac:(lia)) as K16. rewrite (take_ge (drop 16 d)) in K16 by (rewrite drop_length; lia). rewrite K16.
  do 20 (destruct d as [|? d]; [discriminate|]). destruct d; [reflexivity|discriminate].
Qed.

Theorem sha1_spec msg d : is_bytes msg -> is_sha1 msg d <-> d = sha1 msg.
Proof.
  intros Hm. pose proof (sha_digest msg Hm) as E. cbv zeta in E.
  assert (Hlen : length (sha_blocks (sha_pad msg)) = (length (sha_pad msg) / 64)%nat) by (unfold sha_blocks; by rewrite fmap_length, seq_length).
  split.
  - intros (p & H & Hp & H0 & HH & Hl & Hd & HE). apply pad_unique in Hp as ->.
    destruct (blocks_run (sha_pad msg) H sha_start (sha_pad_ok msg Hm) start_ok H0 HH (length (sha_pad msg) / 64) ltac:(lia)) as [E1 _].
    rewrite take_ge in E1 by (rewrite Hlen; lia). rewrite E, <- E1, HE. by apply digest_unique.
  - intros ->. set (H := fun n => foldl sha_compress sha_start (take n (sha_blocks (sha_pad msg)))).
    assert (HO : forall n, (n <= length (sha_pad msg) / 64)%nat -> words_ok (H n) /\
      ((n < length (sha_pad msg) / 64)%nat -> sha_block (H n) (sha_word (sha_pad msg) n <$> seq 0 16) (H (n + 1)%nat))).
    { assert (HB : forall n, (n < length (sha_pad msg) / 64)%nat -> H (n + 1)%nat = sha_compress (H n) (sha_word (sha_pad msg) n <$> seq 0 16)).
      { intros n Hn. unfold H. rewrite Nat.add_1_r, (take_S_r _ _ (sha_word (sha_pad msg) n <$> seq 0 16)).
        - by rewrite foldl_app.
        - unfold sha_blocks. rewrite list_lookup_fmap, lookup_seq_lt by lia. done. }
      assert (HS : forall n, words_ok (H n) -> words_ok (sha_compress (H n) (sha_word (sha_pad msg) n <$> seq 0 16)) /\
        forall s', sha_block (H n) (sha_word (sha_pad msg) n <$> seq 0 16) s' <-> s' = sha_compress (H n) (sha_word (sha_pad msg) n <$> seq 0 16)).
      { intros n Hn. apply block_spec; [done|by rewrite fmap_length, seq_length|].
        apply Forall_fmap, Forall_forall. intros j _. by apply sha_word_ok, sha_pad_ok. }
      assert (HW : forall n, (n <= length (sha_pad msg) / 64)%nat -> words_ok (H n)).
      { induction n as [|n IH]; intros Hn; [exact start_ok|]. rewrite <- Nat.add_1_r, HB by lia. apply HS, IH. lia. }
      intros n Hn. split; [by apply HW|]. intros Hn'. apply HS; [by apply HW|by apply HB]. }
    exists (sha_pad msg), H. split; [apply pad_ok|]. split; [done|]. split; [intros i Hi; apply HO; lia|].
    assert (Hf : H (length (sha_pad msg) / 64)%nat = foldl sha_compress sha_start (sha_blocks (sha_pad msg))) by (unfold H; by rewrite take_ge by lia).
    pose proof (proj1 (HO _ (Nat.le_refl _))) as Hw. rewrite Hf in Hw |- *.
    rewrite E. destruct (foldl sha_compress sha_start (sha_blocks (sha_pad msg))) as [[[[a b] c] d'] e]. by apply digest_parts.
Qed.
