(** The words of the generator (Rng.v) are those of the key stream (SpecRng.v). *)
From stdpp Require Import base list.
From Coq Require Import NArith Lia.
From Verif Require Import Base MinHasher Rng SpecRng RngFacts.
Local Open Scope N_scope.

Lemma lor_add a b n : a mod 2 ^ n = 0 -> b < 2 ^ n -> N.lor a b = a + b.
Proof.
  intros Ha Hb. assert (Hland : N.land a b = 0).
  { apply N.bits_inj. intros i. rewrite N.land_spec, N.bits_0.
    destruct (N.lt_ge_cases i n) as [Hi|Hi].
    - assert (N.testbit a i = false) as ->; [|done].
      rewrite <- (N.mod_pow2_bits_low a n i Hi), Ha. apply N.bits_0.
    - assert (N.testbit b i = false) as ->; [|by rewrite andb_false_r].
      rewrite <- (N.mod_small b (2 ^ n)) by done. by apply N.mod_pow2_bits_high. }
  rewrite <- N.lxor_lor by done. symmetry. by apply N.add_nocarry_lxor.
Qed.

Lemma shift_mod x n : n <= 32 -> (x * 2 ^ n) mod 2 ^ 32 = 2 ^ n * (x mod 2 ^ (32 - n)).
Proof.
  intros Hn. replace (2 ^ 32) with (2 ^ n * 2 ^ (32 - n)) by (rewrite <- N.pow_add_r; f_equal; lia).
  rewrite (N.mul_comm x). apply N.mul_mod_distr_l; apply N.pow_nonzero; lia.
Qed.

Lemma top_lt x n : n <= 32 -> x < 2 ^ 32 -> x / 2 ^ (32 - n) < 2 ^ n.
Proof.
  intros Hn Hx. apply N.div_lt_upper_bound; [apply N.pow_nonzero; lia|].
  rewrite <- N.pow_add_r. by replace (32 - n + n) with 32 by lia.
Qed.

Lemma rotate_left_rotl x n : n <= 32 -> x < 2 ^ 32 -> rotate_left x n = rotl x n /\ rotl x n < 2 ^ 32.
Proof.
  intros Hn Hx. unfold rotate_left, rotl. rewrite low32_mod, N.shiftl_mul_pow2, N.shiftr_div_pow2.
  rewrite shift_mod by done. pose proof (top_lt x n Hn Hx) as Ht. split.
  - apply (lor_add _ _ n); [|done]. rewrite N.mul_comm. apply N.mod_mul, N.pow_nonzero. lia.
  - pose proof (N.mod_lt x (2 ^ (32 - n)) ltac:(apply N.pow_nonzero; lia)) as Hm.
    assert (2 ^ n * 2 ^ (32 - n) = 2 ^ 32) by (rewrite <- N.pow_add_r; f_equal; lia).
    generalize dependent (x mod 2 ^ (32 - n)). generalize dependent (x / 2 ^ (32 - n)).
    generalize dependent (2 ^ (32 - n)). generalize dependent (2 ^ n). intros. nia.
Qed.

Lemma rotate_right_add x n : n <= 32 -> x < 2 ^ 32 ->
  rotate_right x n = x / 2 ^ n + (x * 2 ^ (32 - n)) mod 2 ^ 32.
Proof.
  intros Hn Hx. unfold rotate_right. rewrite low32_mod, N.shiftl_mul_pow2, N.shiftr_div_pow2.
  rewrite N.lor_comm, N.add_comm. apply (lor_add _ _ (32 - n)).
  - rewrite shift_mod by lia. rewrite N.mul_comm. apply N.mod_mul, N.pow_nonzero. lia.
  - replace n with (32 - (32 - n)) at 1 by lia. apply top_lt; [lia|done].
Qed.

Lemma lxor_lt n x y : x < 2 ^ n -> y < 2 ^ n -> N.lxor x y < 2 ^ n.
Proof.
  intros Hx Hy. assert (E : N.lxor x y mod 2 ^ n = N.lxor x y).
  { apply N.bits_inj. intros i. destruct (N.lt_ge_cases i n) as [Hi|Hi].
    - by apply N.mod_pow2_bits_low.
    - rewrite N.mod_pow2_bits_high by done. rewrite N.lxor_spec.
      rewrite <- (N.mod_small x (2 ^ n)), <- (N.mod_small y (2 ^ n)) by done.
      by rewrite !N.mod_pow2_bits_high by done. }
  rewrite <- E. apply N.mod_lt, N.pow_nonzero. lia.
Qed.

(** The quarter round on four words. *)
Definition quarter_spec (a b c d : N) : N * N * N * N :=
  let a := (a + b) mod 2 ^ 32 in let d := rotl (N.lxor d a) 16 in
  let c := (c + d) mod 2 ^ 32 in let b := rotl (N.lxor b c) 12 in
  let a := (a + b) mod 2 ^ 32 in let d := rotl (N.lxor d a) 8 in
  let c := (c + d) mod 2 ^ 32 in let b := rotl (N.lxor b c) 7 in
  (a, b, c, d).

Definition word (x : N) : Prop := x < 2 ^ 32.

Lemma mod_word x : word (x mod 2 ^ 32).
Proof. by apply N.mod_lt. Qed.

Lemma quarter_round_spec a b c d : word a -> word b -> word c -> word d ->
  quarter_round a b c d = quarter_spec a b c d /\
  word (quarter_spec a b c d).1.1.1 /\ word (quarter_spec a b c d).1.1.2 /\
  word (quarter_spec a b c d).1.2 /\ word (quarter_spec a b c d).2.
Proof.
  unfold word. intros Ha Hb Hc Hd. unfold quarter_round, quarter_spec, add32. rewrite !low32_mod.
  pose proof (mod_word (a + b)) as Ha1. set (a1 := (a + b) mod 2 ^ 32) in *. clearbody a1.
  destruct (rotate_left_rotl (N.lxor d a1) 16 ltac:(done) ltac:(by apply lxor_lt)) as [-> Hd1].
  set (d1 := rotl (N.lxor d a1) 16) in *. clearbody d1. rewrite ?low32_mod.
  pose proof (mod_word (c + d1)) as Hc1. set (c1 := (c + d1) mod 2 ^ 32) in *. clearbody c1.
  destruct (rotate_left_rotl (N.lxor b c1) 12 ltac:(done) ltac:(by apply lxor_lt)) as [-> Hb1].
  set (b1 := rotl (N.lxor b c1) 12) in *. clearbody b1. rewrite ?low32_mod.
  pose proof (mod_word (a1 + b1)) as Ha2. set (a2 := (a1 + b1) mod 2 ^ 32) in *. clearbody a2.
  destruct (rotate_left_rotl (N.lxor d1 a2) 8 ltac:(done) ltac:(by apply lxor_lt)) as [-> Hd2].
  set (d2 := rotl (N.lxor d1 a2) 8) in *. clearbody d2. rewrite ?low32_mod.
  pose proof (mod_word (c1 + d2)) as Hc2. set (c2 := (c1 + d2) mod 2 ^ 32) in *. clearbody c2.
  destruct (rotate_left_rotl (N.lxor b1 c2) 7 ltac:(done) ltac:(by apply lxor_lt)) as [-> Hb2].
  done.
Qed.

Lemma nth_insert_eq (s : list N) x v : (x < length s)%nat -> nth x (<[x := v]> s) 0 = v.
Proof. intros H. apply nth_lookup_Some. by apply list_lookup_insert. Qed.
Lemma nth_insert_ne (s : list N) x y v : x ≠ y -> nth y (<[x := v]> s) 0 = nth y s 0.
Proof. intros H. rewrite !nth_lookup. by rewrite list_lookup_insert_ne. Qed.

Lemma step_eq (s : list N) x y z n X Z : (x < length s)%nat -> x ≠ z ->
  X = (nth x s 0 + nth y s 0) mod 2 ^ 32 -> Z = rotl (N.lxor (nth z s 0) X) n ->
  step s x y z n = <[z := Z]> (<[x := X]> s).
Proof.
  intros Hx Hne -> ->. unfold step. by rewrite nth_insert_eq, nth_insert_ne by done.
Qed.

Lemma Qround_quarter s a b c d a' b' c' d' : NoDup [a; b; c; d] ->
  (a < length s)%nat -> (b < length s)%nat -> (c < length s)%nat -> (d < length s)%nat ->
  quarter_spec (nth a s 0) (nth b s 0) (nth c s 0) (nth d s 0) = (a', b', c', d') ->
  Qround s a b c d = <[a := a']> (<[b := b']> (<[c := c']> (<[d := d']> s))).
Proof.
  intros Hnd Ha Hb Hc Hd Hq. rewrite !NoDup_cons, !not_elem_of_cons in Hnd. destruct_and! Hnd.
  unfold quarter_spec in Hq. unfold Qround.
  set (a1 := (nth a s 0 + nth b s 0) mod 2 ^ 32) in Hq. set (d1 := rotl (N.lxor (nth d s 0) a1) 16) in Hq.
  set (c1 := (nth c s 0 + d1) mod 2 ^ 32) in Hq. set (b1 := rotl (N.lxor (nth b s 0) c1) 12) in Hq.
  set (a2 := (a1 + b1) mod 2 ^ 32) in Hq. set (d2 := rotl (N.lxor d1 a2) 8) in Hq.
  set (c2 := (c1 + d2) mod 2 ^ 32) in Hq. set (b2 := rotl (N.lxor b1 c2) 7) in Hq.
  injection Hq as <- <- <- <-.
  rewrite (step_eq s a b d 16 a1 d1) by done.
  set (s1 := <[d:=_]> _).
  rewrite (step_eq s1 c d b 12 c1 b1); [| |done| |].
  2:{ unfold s1. by rewrite ?insert_length. }
  2:{ unfold s1. by rewrite nth_insert_ne, nth_insert_ne, nth_insert_eq by (done || by rewrite insert_length). }
  2:{ unfold s1. by rewrite nth_insert_ne, nth_insert_ne by done. }
  set (s2 := <[b:=_]> _).
  rewrite (step_eq s2 a b d 8 a2 d2); [| |done| |].
  2:{ unfold s2, s1. by rewrite ?insert_length. }
  2:{ unfold s2, s1. rewrite nth_insert_ne, nth_insert_ne, nth_insert_ne, nth_insert_eq by done.
      by rewrite nth_insert_eq by (by rewrite ?insert_length). }
  2:{ unfold s2, s1. rewrite nth_insert_ne, nth_insert_ne by done.
      by rewrite nth_insert_eq by (by rewrite ?insert_length). }
  set (s3 := <[d:=_]> _).
  rewrite (step_eq s3 c d b 7 c2 b2); [| |done| |].
  2:{ unfold s3, s2, s1. by rewrite ?insert_length. }
  2:{ unfold s3, s2, s1. rewrite nth_insert_ne, nth_insert_ne, nth_insert_ne, nth_insert_eq by (done || by rewrite ?insert_length).
      by rewrite nth_insert_eq by (by rewrite ?insert_length). }
  2:{ unfold s3, s2, s1. rewrite nth_insert_ne, nth_insert_ne by done.
      by rewrite nth_insert_eq by (by rewrite ?insert_length). }
  unfold s3, s2, s1. apply list_eq. intros i.
  destruct (decide (i = a)) as [->|Hia].
  { rewrite !list_lookup_insert_ne by done. by rewrite !list_lookup_insert by (by rewrite ?insert_length). }
  destruct (decide (i = b)) as [->|Hib].
  { rewrite list_lookup_insert by (by rewrite ?insert_length).
    rewrite list_lookup_insert_ne by done. by rewrite list_lookup_insert by (by rewrite ?insert_length). }
  destruct (decide (i = c)) as [->|Hic].
  { rewrite list_lookup_insert_ne by done. rewrite list_lookup_insert by (by rewrite ?insert_length).
    rewrite list_lookup_insert_ne, list_lookup_insert_ne by done. by rewrite list_lookup_insert by (by rewrite ?insert_length). }
  destruct (decide (i = d)) as [->|Hid].
  { rewrite list_lookup_insert_ne, list_lookup_insert_ne by done. rewrite list_lookup_insert by (by rewrite ?insert_length).
    rewrite list_lookup_insert_ne, list_lookup_insert_ne, list_lookup_insert_ne by done.
    by rewrite list_lookup_insert by (by rewrite ?insert_length). }
  by rewrite !list_lookup_insert_ne by done.
Qed.

Lemma distinct4 (a b c d : nat) : bool_decide (NoDup [a; b; c; d]) = true -> NoDup [a; b; c; d].
Proof. by intros ?%bool_decide_eq_true. Qed.

Lemma double_round_inner s : length s = 16%nat -> Forall word s ->
  double_round s = inner_block s /\ Forall word (inner_block s).
Proof.
  intros Hlen H. do 16 (destruct s as [|? s]; [done|]). destruct s; [|done]. clear Hlen.
  rewrite !Forall_cons in H. destruct_and! H. unfold inner_block, double_round.
  Ltac one := match goal with
    | |- context [quarter_round ?x ?y ?z ?w] =>
        let Q := fresh "Q" in let E := fresh "E" in
        destruct (quarter_round_spec x y z w ltac:(assumption) ltac:(assumption) ltac:(assumption) ltac:(assumption))
          as (Q & ? & ? & ? & ?); rewrite Q; clear Q;
        destruct (quarter_spec x y z w) as [[[? ?] ?] ?] eqn:E; cbn [fst snd] in *;
        match goal with |- context [Qround ?s ?i ?j ?k ?l] =>
          match s with _ :: _ =>
            rewrite (Qround_quarter s i j k l _ _ _ _ (distinct4 i j k l eq_refl)
              ltac:(cbn [length]; lia) ltac:(cbn [length]; lia) ltac:(cbn [length]; lia) ltac:(cbn [length]; lia) E);
            cbn [insert list_insert]; clear E
          end
        end
    end.
  one. one. one. one. one. one. one. one. split; [done|]. rewrite !Forall_cons. split_and!; done || constructor.
Qed.

Lemma block_stream rounds key counter : length key = 8%nat -> Forall word key -> counter < 2 ^ 64 ->
  chacha_block rounds key counter = key_stream_block rounds key counter.
Proof.
  intros Hlen Hkey Hc. unfold chacha_block, key_stream_block, chacha_start.
  rewrite low32_mod, N.shiftr_div_pow2.
  set (s := [_; _; _; _] ++ key ++ _).
  assert (Hs : length s = 16%nat) by (unfold s; rewrite !app_length, Hlen; done).
  assert (Hw : Forall word s).
  { unfold s. rewrite !Forall_app, !Forall_cons. unfold word. split_and!; try done; try constructor.
    - by apply N.mod_lt.
    - by apply N.div_lt_upper_bound. }
  assert (Hi : length (Nat.iter rounds inner_block s) = 16%nat /\ Forall word (Nat.iter rounds inner_block s) /\
               Nat.iter rounds double_round s = Nat.iter rounds inner_block s).
  { clear Hc. induction rounds as [|n (IHl & IHw & IHe)]; [done|].
    change (Nat.iter (S n) ?f s) with (f (Nat.iter n f s)).
    destruct (double_round_inner _ IHl IHw) as [E W]. rewrite <- E at 1. rewrite double_round_length by done.
    split; [done|]. split; [done|]. by rewrite IHe. }
  destruct Hi as (Hil & _ & ->). generalize dependent (Nat.iter rounds inner_block s). intros t Ht.
  clearbody s. clear - Hs Ht. do 16 (destruct s as [|? s]; [done|]). destruct s; [|done].
  do 16 (destruct t as [|? t]; [done|]). destruct t; [|done].
  cbn [zip_with seq fmap list_fmap nth]. unfold add32. by rewrite !low32_mod.
Qed.

Lemma pcg_next_spec s : pcg_next s = (s * 6364136223846793005 + 11634580027462260723) mod 2 ^ 64.
Proof.
  unfold pcg_next, wrapping_add, wrapping_mul. change u64 with (2 ^ 64). by rewrite N.add_mod_idemp_l.
Qed.

Lemma pcg_output_spec s : s < 2 ^ 64 ->
  pcg_output s = (let x := N.lxor (s / 2 ^ 18) s / 2 ^ 27 mod 2 ^ 32 in
                  (x / 2 ^ (s / 2 ^ 59) + x * 2 ^ (32 - s / 2 ^ 59) mod 2 ^ 32)) /\ word (pcg_output s).
Proof.
  intros Hs. unfold pcg_output. rewrite low32_mod, !N.shiftr_div_pow2. cbv zeta.
  set (x := N.lxor _ _ / _ mod _). assert (Hx : x < 2 ^ 32) by (by apply N.mod_lt). clearbody x.
  assert (Hn : s / 2 ^ 59 <= 32).
  { assert (s / 2 ^ 59 < 32); [|lia]. by apply N.div_lt_upper_bound. }
  generalize dependent (s / 2 ^ 59). intros n Hn. rewrite rotate_right_add by done. split; [done|].
  unfold word. rewrite shift_mod by lia. replace (32 - (32 - n)) with n by lia.
  pose proof (top_lt x (32 - n) ltac:(lia) Hx) as Ht. replace (32 - (32 - n)) with n in Ht by lia.
  pose proof (N.mod_lt x (2 ^ n) ltac:(apply N.pow_nonzero; lia)) as Hm.
  assert (2 ^ (32 - n) * 2 ^ n = 2 ^ 32) by (rewrite <- N.pow_add_r; f_equal; lia).
  generalize dependent (x mod 2 ^ n). generalize dependent (x / 2 ^ n).
  generalize dependent (2 ^ (32 - n)). generalize dependent (2 ^ n). intros. nia.
Qed.

Lemma seed_words_spec seed : forall n i, seed_words n (Nat.iter i (fun s => (s * 6364136223846793005 + 11634580027462260723) mod 2 ^ 64) seed)
  = pcg_word seed <$> seq i n.
Proof.
  induction n as [|n IH]; intros i; [done|]. cbn [seed_words seq fmap list_fmap].
  rewrite pcg_next_spec.
  change ((Nat.iter i ?f seed * ?a + ?c) mod ?m) with (Nat.iter (S i) f seed). f_equal; [|apply IH].
  unfold pcg_word, pcg_states. apply pcg_output_spec. cbn [Nat.iter nat_rect]. by apply N.mod_lt.
Qed.

Lemma seed_key seed : seed_from_u64 seed = key_of_seed seed.
Proof. exact (seed_words_spec seed 8 0). Qed.

Lemma key_ok seed : length (key_of_seed seed) = 8%nat /\ Forall word (key_of_seed seed).
Proof.
  split; [done|]. apply Forall_fmap, Forall_forall. intros i _. unfold compose, pcg_word.
  set (s := pcg_states seed i).
  assert (Hs : s < 2 ^ 64) by (unfold s, pcg_states; cbn [Nat.iter nat_rect]; by apply N.mod_lt).
  destruct (pcg_output_spec s Hs) as [E W]. rewrite E in W. exact W.
Qed.

(** *** The sequence of words *)
Lemma next_buffered key c w ws : std_next (StdRng key c (w :: ws)) = (w, StdRng key c ws).
Proof. reflexivity. Qed.

Lemma next_refill key c w ws : chacha_block 6 key c = w :: ws ->
  std_next (StdRng key c []) = (w, StdRng key (c + 1) ws).
Proof. intros E. unfold std_next. cbn [rng_buffer rng_key rng_counter]. by rewrite E. Qed.

Lemma read_next n r w r1 ws r' : std_next r = (w, r1) ->
  repeat_draw (fun r => Some (std_next r)) (S n) r = Some (ws, r') ->
  exists xs, ws = w :: xs /\ repeat_draw (fun r => Some (std_next r)) n r1 = Some (xs, r').
Proof.
  intros E. cbn [repeat_draw mbind option_bind]. rewrite E.
  destruct (repeat_draw _ n r1) as [[xs r2]|]; [|done]. cbn [mbind option_bind]. intros [= <- <-]. by exists xs.
Qed.

Lemma key_stream_block_nth key c j w : (j < 16)%nat -> key_stream_block 6 key (N.of_nat c) !! j = Some w ->
  key_stream 6 key (16 * c + j) = w.
Proof.
  intros Hj Hw. unfold key_stream. rewrite (Nat.mul_comm 16), (Nat.add_comm (c * 16)).
  rewrite Nat.mod_add, Nat.div_add by lia. rewrite Nat.mod_small, Nat.div_small by lia.
  apply nth_lookup_Some. exact Hw.
Qed.

Lemma std_words key (block : N -> list N) : length key = 8%nat -> Forall word key ->
  (forall c, chacha_block 6 key c = block c) -> (forall c, length (block c) = 16%nat) ->
  (forall c, c < 2 ^ 64 -> block c = key_stream_block 6 key c) ->
  forall n c buffer j ws r', (j <= 16)%nat ->
  buffer = drop j (block (N.of_nat c)) -> N.of_nat (c + S n) < 2 ^ 64 ->
  repeat_draw (fun r => Some (std_next r)) n (StdRng key (N.of_nat c + 1) buffer) = Some (ws, r') ->
  forall i, (i < n)%nat -> ws !! i = Some (key_stream 6 key (16 * c + j + i)).
Proof.
  intros Hlen Hkey Hblock Hbl Hspec. induction n as [|n IH]; intros c buffer j ws r' Hj Hb Hc E i Hi; [lia|].
  destruct (decide (j = 16)%nat) as [->|Hne].
  - rewrite drop_ge in Hb by (rewrite Hbl; lia). subst buffer.
    replace (N.of_nat c + 1) with (N.of_nat (S c)) in E by lia.
    pose proof (Hbl (N.of_nat (S c))) as Hl. pose proof (Hspec (N.of_nat (S c)) ltac:(lia)) as Hs.
    pose proof (Hblock (N.of_nat (S c))) as Hcb. pose proof (IH (S c)) as IHc. clear IH.
    destruct (block (N.of_nat (S c))) as [|w ws'] eqn:Eb; [done|].
    apply (read_next n _ w _ ws r' (next_refill _ _ _ _ Hcb)) in E as (xs & -> & E).
    destruct i as [|i].
    + change ((w :: xs) !! 0%nat) with (Some w). f_equal. symmetry.
      replace (16 * c + 16 + 0)%nat with (16 * S c + 0)%nat by lia.
      apply key_stream_block_nth; [lia|]. by rewrite <- Hs.
    + change ((w :: xs) !! S i) with (xs !! i). replace (16 * c + 16 + S i)%nat with (16 * S c + 1 + i)%nat by lia.
      apply (IHc ws' 1%nat xs r'); [lia|done|lia|exact E|lia].
  - assert (Hjl : (j < length (block (N.of_nat c)))%nat) by (rewrite Hbl; lia).
    destruct (lookup_lt_is_Some_2 _ _ Hjl) as [w Hw]. rewrite (drop_S _ w) in Hb by done. subst buffer.
    apply (read_next n _ w _ ws r' (next_buffered _ _ _ _)) in E as (xs & -> & E).
    destruct i as [|i].
    + change ((w :: xs) !! 0%nat) with (Some w). f_equal. symmetry. rewrite Nat.add_0_r.
      apply key_stream_block_nth; [lia|]. rewrite <- Hspec by lia. exact Hw.
    + change ((w :: xs) !! S i) with (xs !! i). replace (16 * c + j + S i)%nat with (16 * c + S j + i)%nat by lia.
      eapply (IH c _ (S j) xs r'); [lia|reflexivity|lia|exact E|lia].
Qed.

Lemma seed_stream seed n ws r' : N.of_nat n < 2 ^ 63 ->
  repeat_draw (fun r => Some (std_next r)) n (std_seed_from_u64 seed) = Some (ws, r') ->
  length ws = n /\ forall i, (i < n)%nat -> ws !! i = Some (key_stream 6 (key_of_seed seed) i).
Proof.
  intros Hn E. destruct (key_ok seed) as [Hlen Hkey]. split.
  { eapply (repeat_draw_forall words_ok _ (fun _ => True)); [|apply seed_ok|exact E].
    intros r x r1 Hr [= E1]. split; [done|]. pose proof (std_next_ok r Hr) as [_ H]. by rewrite E1 in H. }
  unfold std_seed_from_u64 in E. rewrite seed_key in E. generalize dependent (key_of_seed seed). intros key E Hlen Hkey.
  assert (Hblock : exists block, (forall c, chacha_block 6 key c = block c) /\ (forall c, length (block c) = 16%nat) /\
    (forall c, c < 2 ^ 64 -> block c = key_stream_block 6 key c)).
  { exists (chacha_block 6 key). split; [done|]. split; [intros c; by apply chacha_block_length|].
    intros c Hc. by apply block_stream. }
  destruct Hblock as (block & Hblock & Hbl & Hspec). intros i Hi. destruct n as [|n]; [lia|].
  pose proof (Hbl 0) as Hl. pose proof (Hspec 0 ltac:(lia)) as Hs. pose proof (Hblock 0) as Hcb.
  destruct (block 0) as [|w ws'] eqn:Eb; [done|].
  apply (read_next n _ w _ ws r' (next_refill _ _ _ _ Hcb)) in E as (xs & -> & E).
  destruct i as [|i].
  - change ((w :: xs) !! 0%nat) with (Some w). f_equal. symmetry.
    apply (key_stream_block_nth key 0 0); [lia|]. change (N.of_nat 0) with 0. by rewrite <- Hs.
  - change ((w :: xs) !! S i) with (xs !! i). replace (S i) with (16 * 0 + 1 + i)%nat by lia.
    apply (std_words key block Hlen Hkey Hblock Hbl Hspec n 0 ws' 1 xs r'); [lia| |lia|exact E|lia].
    change (N.of_nat 0) with 0. by rewrite Eb.
Qed.
