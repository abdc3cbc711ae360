(** Facts about drawing from a generator (Rng.v). *)
From stdpp Require Import base list.
From Coq Require Import NArith Lia.
From Verif Require Import Base MinHasher Rng SpecRng.
Local Open Scope N_scope.

(** *** Drawing integers *)
Lemma low32_mod x : low32 x = x mod 2 ^ 32.
Proof. unfold low32. change 4294967295 with (N.ones 32). apply N.land_ones. Qed.

Lemma low32_lt x : low32 x < 2 ^ 32.
Proof. rewrite low32_mod. by apply N.mod_lt. Qed.

(** The multiples of [range] in an interval of [share * range] numbers. *)
Lemma multiples (range share A : N) : 0 < range ->
  exists l : list N, NoDup l /\ N.of_nat (length l) = share /\
    forall v, v ∈ l <-> A <= v * range < A + share * range.
Proof.
  intros Hr. set (c := (A + range - 1) / range).
  assert (Hc : A <= c * range < A + range).
  { pose proof (N.div_mod (A + range - 1) range ltac:(lia)) as Hd. fold c in Hd.
    pose proof (N.mod_lt (A + range - 1) range ltac:(lia)) as Hm.
    generalize dependent ((A + range - 1) mod range). generalize dependent c. clear - Hr. intros. nia. }
  exists ((fun i => c + N.of_nat i) <$> seq 0 (N.to_nat share)). split; [|split].
  - apply NoDup_fmap_2; [|apply NoDup_seq]. intros i j. lia.
  - rewrite fmap_length, seq_length. lia.
  - intros v. rewrite elem_of_list_fmap. split.
    + intros (i & -> & Hi%elem_of_seq). nia.
    + intros Hv. exists (N.to_nat (v - c)). rewrite elem_of_seq.
      assert (c <= v) by nia. assert (v < c + share) by nia. split; lia.
Qed.

Lemma try_word_fair bits low range zone share :
  0 < range -> 0 < share -> share * range <= 2 ^ bits -> zone = share * range - 1 ->
  fair (try_word bits low range zone) (2 ^ bits) low (low + range) share.
Proof.
  intros Hr Hs Hle ->. set (W := 2 ^ bits) in *.
  assert (Hpos : 0 < share * range) by (by apply N.mul_pos_pos).
  assert (HW : W ≠ 0) by (apply N.pow_nonzero; lia).
  assert (Hiff : forall v x, try_word bits low range (share * range - 1) v = Some x <->
    (v * range) mod W < share * range /\ x = low + v * range / W).
  { intros v x. unfold try_word. fold W. clear - Hpos.
    generalize dependent (share * range). generalize ((v * range) mod W). generalize (v * range / W).
    intros d m n Hn. destruct (N.leb_spec m (n - 1)).
    - split; [intros [= <-]; split; [lia|done]|]. by intros [_ ->].
    - split; [done|]. intros [? _]. lia. }
  split.
  - intros v x Hv Hx. apply Hiff in Hx as [_ ->]. split; [apply N.le_add_r|].
    apply N.add_lt_mono_l, N.div_lt_upper_bound; [done|]. by apply N.mul_lt_mono_pos_r.
  - intros x Hx. destruct (multiples range share ((x - low) * W) Hr) as (l & Hnd & Hlen & Hl).
    exists l. split; [done|]. split; [done|]. intros v. rewrite Hl, Hiff.
    pose proof (N.div_mod (v * range) W HW) as Hd. pose proof (N.mod_lt (v * range) W HW) as Hm.
    generalize dependent ((v * range) mod W). generalize dependent (v * range / W). intros d m Hd Hm.
    clearbody W. clear Hiff Hl Hlen Hnd. split.
    + intros Hv. assert (d = x - low) as Hdx.
      { assert (d < x - low + 1) by nia. assert (x - low < d + 1) by nia. lia. }
      split; [nia|]. split; [nia|lia].
    + intros (Hv & Hm' & ->). replace (low + d - low) with d by lia. nia.
Qed.

Lemma uniform_zone_share bits range : 0 < range < 2 ^ bits ->
  uniform_zone bits range = 2 ^ bits / range * range - 1 /\ 0 < 2 ^ bits / range /\
  2 ^ bits / range * range <= 2 ^ bits.
Proof.
  intros Hr. unfold uniform_zone. set (W := 2 ^ bits) in *.
  replace (W - 1 - range + 1) with (W - range) by lia.
  assert (Hm : (W - range) mod range = W mod range).
  { rewrite <- (N.mod_add (W - range) 1 range) by lia. f_equal. lia. }
  rewrite Hm. pose proof (N.div_mod W range ltac:(lia)). pose proof (N.mod_lt W range ltac:(lia)).
  assert (0 < W / range) by (apply N.div_str_pos; lia). clear Hm.
  generalize dependent (W mod range). generalize dependent (W / range). clearbody W. intros. nia.
Qed.

Lemma single_zone_share range : 0 < range < 2 ^ 32 ->
  single_zone range = 2 ^ (32 - N.size range) * range - 1 /\
  2 ^ (32 - N.size range) * range <= 2 ^ 32 <= 2 * (2 ^ (32 - N.size range) * range).
Proof.
  intros Hr. unfold single_zone. rewrite N.shiftl_mul_pow2.
  split; [f_equal; apply N.mul_comm|].
  pose proof (N.size_gt range) as Hgt. pose proof (N.size_le range) as Hle.
  rewrite N.succ_double_spec in Hle.
  assert (Hs : N.size range <= 32).
  { destruct (N.le_gt_cases (N.size range) 32) as [?|Hlt]; [done|].
    assert (2 ^ 33 <= 2 ^ N.size range) by (apply N.pow_le_mono_r; lia).
    assert (2 ^ 33 = 2 * 2 ^ 32) by reflexivity. lia. }
  assert (Hp : 2 ^ 32 = 2 ^ (32 - N.size range) * 2 ^ N.size range).
  { rewrite <- N.pow_add_r. f_equal. lia. }
  assert (0 < 2 ^ (32 - N.size range)) by (apply N.neq_0_lt_0, N.pow_nonzero; lia).
  assert (He : 2 ^ N.size range = 2 * 2 ^ (N.size range - 1)).
  { rewrite <- N.pow_succ_r'. f_equal. destruct range; [lia|]. cbn [N.size]. lia. }
  rewrite Hp. clear Hp. rewrite He in *. generalize dependent (2 ^ (32 - N.size range)).
  generalize dependent (2 ^ (N.size range - 1)). clear. intros h Hgt Hle _ share Hs.
  split; [apply N.mul_le_mono_l; lia|]. assert (h <= range) by lia. nia.
Qed.

(** *** Drawing from a generator of words *)
Lemma exchange_perm {A} (l : list A) (i k : nat) : exchange l i k ≡ₚ l.
Proof.
  unfold exchange. destruct (l !! i) as [x|] eqn:Hi; [|done]. destruct (l !! k) as [y|] eqn:Hk; [|done].
  destruct (decide (i = k)) as [->|Hne].
  { rewrite Hi in Hk. simplify_eq. rewrite list_insert_insert, list_insert_id; done. }
  apply Permutation_inj. rewrite !insert_length. split; [done|].
  exists (fun j => if decide (j = i) then k else if decide (j = k) then i else j). split.
  - intros a b. repeat case_decide; congruence.
  - intros j. pose proof (lookup_lt_Some _ _ _ Hi). pose proof (lookup_lt_Some _ _ _ Hk).
    destruct (decide (j = k)) as [->|Hk'].
    + rewrite list_lookup_insert by (by rewrite insert_length). by case_decide.
    + rewrite list_lookup_insert_ne by done. case_decide as Hd.
      * rewrite Hd. by rewrite list_lookup_insert by done.
      * by rewrite list_lookup_insert_ne by done.
Qed.

Lemma exchanges_perm {A} (i : nat) : forall (l : list A) ks, exchanges i l ks ≡ₚ l.
Proof.
  induction i as [|i IH]; intros l [|k ks]; try done. cbn [exchanges].
  rewrite IH. apply exchange_perm.
Qed.

Section Generator.
Context {R : Type} (next : R -> N * R) (ok : R -> Prop).
Context (Hnext : forall r, ok r -> (next r).1 < 2 ^ 32 /\ ok (next r).2).

Lemma next_word_ok bits r : bits = 32 \/ bits = 64 -> ok r ->
  (next_word next bits r).1 < 2 ^ bits /\ ok (next_word next bits r).2.
Proof.
  intros [-> | ->] Hr; unfold next_word.
  - cbn [N.eqb Pos.eqb]. by apply Hnext.
  - cbn [N.eqb Pos.eqb]. unfold next_u64. destruct (Hnext r Hr) as [H1 H2].
    destruct (next r) as [lo r1]. cbn in H1, H2. destruct (Hnext r1 H2) as [H3 H4].
    destruct (next r1) as [hi r2]. cbn [fst snd] in *. split; [|done].
    change (2 ^ 64) with (2 ^ 32 * 2 ^ 32). change u32 with (2 ^ 32). nia.
Qed.

Lemma try_word_range bits low range zone v x : 0 < range -> v < 2 ^ bits ->
  try_word bits low range zone v = Some x -> low <= x < low + range.
Proof.
  intros Hr Hv. unfold try_word. destruct (_ <=? _); [|done]. intros [= <-].
  split; [apply N.le_add_r|]. apply N.add_lt_mono_l, N.div_lt_upper_bound; [lia|].
  by apply N.mul_lt_mono_pos_r.
Qed.

Lemma draw_range fuel bits low range zone : 0 < range -> bits = 32 \/ bits = 64 ->
  forall r x r', ok r -> draw next fuel bits low range zone r = Some (x, r') ->
  low <= x < low + range /\ ok r'.
Proof.
  intros Hr Hb. induction fuel as [|fuel IH]; intros r x r' Hok; [done|]. cbn [draw].
  destruct (next_word_ok bits r Hb Hok) as [Hv Hok']. destruct (next_word next bits r) as [v r1].
  cbn [fst snd] in *. destruct (try_word _ _ _ _ v) as [y|] eqn:Et.
  - intros [= <- <-]. split; [|done]. by eapply try_word_range.
  - by apply IH.
Qed.

(** More rounds do not change the number. *)
Lemma draw_fuel bits low range zone : forall fuel fuel' r out,
  (fuel <= fuel')%nat -> draw next fuel bits low range zone r = Some out ->
  draw next fuel' bits low range zone r = Some out.
Proof.
  induction fuel as [|fuel IH]; intros fuel' r out Hle; [done|].
  destruct fuel' as [|fuel']; [lia|]. cbn [draw]. destruct (next_word next bits r) as [v r1].
  destruct (try_word _ _ _ _ v); [done|]. apply IH. lia.
Qed.

Lemma sample_range fuel bits low high r x r' : low < high -> bits = 32 \/ bits = 64 -> ok r ->
  uniform_sample next fuel bits low high r = Some (x, r') -> low <= x < high /\ ok r'.
Proof.
  intros Hlt Hb Hok E. unfold uniform_sample in E.
  apply draw_range in E as [H1 H2]; [|lia|done|done]. split; [lia|done].
Qed.

Lemma repeat_draw_forall {A} (f : R -> option (A * R)) (P : A -> Prop) :
  (forall r x r', ok r -> f r = Some (x, r') -> P x /\ ok r') ->
  forall n r xs r', ok r -> repeat_draw f n r = Some (xs, r') -> length xs = n /\ Forall P xs /\ ok r'.
Proof.
  intros Hf. induction n as [|n IH]; intros r xs r' Hok E; cbn [repeat_draw] in E.
  { simplify_eq. done. }
  destruct (f r) as [[x r1]|] eqn:E1; [|done]. cbn [mbind option_bind] in E.
  destruct (Hf _ _ _ Hok E1) as [Hx Hr1].
  destruct (repeat_draw f n r1) as [[ys r2]|] eqn:E2; [|done]. cbn [mbind option_bind] in E.
  simplify_eq. destruct (IH _ _ _ Hr1 E2) as (? & ? & ?). cbn [length]. split; [by f_equal|]. by split; [constructor|].
Qed.

Lemma repeat_draw_prefix {A} (f : R -> option (A * R)) : forall n n' r xs r1 ys r2, (n <= n')%nat ->
  repeat_draw f n r = Some (xs, r1) -> repeat_draw f n' r = Some (ys, r2) -> xs = take n ys.
Proof.
  induction n as [|n IH]; intros n' r xs r1 ys r2 Hle E1 E2; cbn [repeat_draw] in E1.
  { by simplify_eq. }
  destruct n' as [|n']; [lia|]. cbn [repeat_draw] in E2.
  destruct (f r) as [[x r3]|]; [|done]. cbn [mbind option_bind] in E1, E2.
  destruct (repeat_draw f n r3) as [[xs' ?]|] eqn:E3; [|done].
  destruct (repeat_draw f n' r3) as [[ys' ?]|] eqn:E4; [|done]. cbn [mbind option_bind] in E1, E2.
  simplify_eq. cbn [take]. f_equal. eapply IH; [|done..]. lia.
Qed.

Lemma repeat_draw_fuel {A} (f g : R -> option (A * R)) :
  (forall r out, f r = Some out -> g r = Some out) ->
  forall n r out, repeat_draw f n r = Some out -> repeat_draw g n r = Some out.
Proof.
  intros Hfg. induction n as [|n IH]; intros r out E; cbn [repeat_draw] in *; [done|].
  destruct (f r) as [[x r1]|] eqn:E1; [|done]. rewrite (Hfg _ _ E1). cbn [mbind option_bind] in *.
  destruct (repeat_draw f n r1) as [[ys r2]|] eqn:E2; [|done]. by rewrite (IH _ _ E2).
Qed.

Lemma gen_index_range fuel n r x r' : 0 < n -> ok r -> gen_index next fuel n r = Some (x, r') ->
  x < n /\ ok r'.
Proof.
  intros Hn Hok E. apply draw_range in E as [H1 H2]; [|done|by left|done]. split; [lia|done].
Qed.

Lemma shuffle_from_exchanges {A} fuel : forall i (l : list A) r l' r', ok r ->
  shuffle_from next fuel i l r = Some (l', r') ->
  (exists ks, downward i ks /\ l' = exchanges i l ks) /\ ok r'.
Proof.
  induction i as [|i IH]; intros l r l' r' Hok E; cbn [shuffle_from] in E.
  { simplify_eq. split; [|done]. by exists []. }
  destruct (gen_index next fuel (N.of_nat (S i + 1)) r) as [[k r1]|] eqn:E1; [|done].
  cbn [mbind option_bind] in E. apply gen_index_range in E1 as [Hk Hr1]; [|lia|done].
  apply IH in E as [(ks & Hks & ->) Hr']; [|done]. split; [|done].
  exists (N.to_nat k :: ks). split; [|done]. cbn [downward]. split; [lia|done].
Qed.

Lemma shuffle_from_fuel {A} fuel fuel' : (fuel <= fuel')%nat -> forall i (l : list A) r out,
  shuffle_from next fuel i l r = Some out -> shuffle_from next fuel' i l r = Some out.
Proof.
  intros Hle. induction i as [|i IH]; intros l r out E; cbn [shuffle_from] in *; [done|].
  destruct (gen_index next fuel (N.of_nat (S i + 1)) r) as [[k r1]|] eqn:E1; [|done].
  unfold gen_index in E1 |- *. rewrite (draw_fuel _ _ _ _ _ _ _ _ Hle E1). cbn [mbind option_bind] in *.
  by apply IH.
Qed.
End Generator.

(** *** Choices and orders *)
Lemma exchange_length {A} (l : list A) i k : length (exchange l i k) = length l.
Proof. apply Permutation_length, exchange_perm. Qed.

Lemma exchange_lookup_above {A} (l : list A) i k j : (k <= i)%nat -> (i < j)%nat ->
  exchange l i k !! j = l !! j.
Proof.
  intros Hk Hj. unfold exchange. destruct (l !! i); [|done]. destruct (l !! k); [|done].
  rewrite !list_lookup_insert_ne by lia. done.
Qed.

Lemma exchange_lookup_top {A} (l : list A) i k : (i < length l)%nat -> (k <= i)%nat ->
  exchange l i k !! i = l !! k.
Proof.
  intros Hi Hk. unfold exchange.
  destruct (lookup_lt_is_Some_2 l i Hi) as [x Hx]. destruct (lookup_lt_is_Some_2 l k ltac:(lia)) as [y Hy].
  rewrite Hx, Hy. destruct (decide (i = k)) as [->|Hne].
  - rewrite Hx in Hy. simplify_eq. apply list_lookup_insert. by rewrite insert_length.
  - rewrite list_lookup_insert_ne by done. by apply list_lookup_insert.
Qed.

Lemma exchanges_lookup_above {A} i : forall (l : list A) ks j, downward i ks -> (i < j)%nat ->
  exchanges i l ks !! j = l !! j.
Proof.
  induction i as [|i IH]; intros l [|k ks] j Hd Hj; try done. destruct Hd as [Hk Hd]. cbn [exchanges].
  rewrite IH by (done || lia). apply exchange_lookup_above; lia.
Qed.

(** From place [i] on, one choice list leads to each arrangement of the first [i + 1] places. *)
Lemma exchanges_unique {A} i : forall (l l' : list A), NoDup l -> l' ≡ₚ l -> (i < length l)%nat ->
  (forall j, (i < j)%nat -> l' !! j = l !! j) ->
  exists! ks, downward i ks /\ exchanges i l ks = l'.
Proof.
  induction i as [|i IH]; intros l l' Hnd Hp Hi Heq.
  - exists []. split.
    + split; [done|]. cbn [exchanges]. symmetry. pose proof (Permutation_length Hp) as Hlen.
      destruct l as [|x l]; [cbn in Hi; lia|]. destruct l' as [|x' l']; [done|].
      assert (l' = l) as ->. { apply list_eq. intros j. apply (Heq (S j)). lia. }
      f_equal. change (x' :: l) with ([x'] ++ l) in Hp. change (x :: l) with ([x] ++ l) in Hp.
      apply Permutation_app_inv_r in Hp. by apply Permutation_singleton_inj in Hp.
    + intros [|k ks] [Hd _]; done.
  - destruct (lookup_lt_is_Some_2 l' (S i)) as [y Hy]; [by rewrite (Permutation_length Hp)|].
    assert (Hin : y ∈ l) by (rewrite <- Hp; by eapply elem_of_list_lookup_2).
    apply elem_of_list_lookup_1 in Hin as [k Hk].
    assert (Hki : (k <= S i)%nat).
    { destruct (decide (k <= S i)%nat) as [|Hgt]; [done|]. exfalso.
      assert (Hnd' : NoDup l') by (by rewrite Hp).
      pose proof (Heq k ltac:(lia)) as Hk'. rewrite Hk in Hk'.
      pose proof (NoDup_lookup _ _ _ _ Hnd' Hy Hk'). lia. }
    destruct (IH (exchange l (S i) k) l') as (ks & [Hd He] & Hu).
    { by rewrite exchange_perm. } { by rewrite exchange_perm. } { rewrite exchange_length. lia. }
    { intros j Hj. destruct (decide (j = S i)) as [->|Hne].
      - rewrite exchange_lookup_top by (lia || done). by rewrite Hy, Hk.
      - rewrite exchange_lookup_above by lia. apply Heq. lia. }
    exists (k :: ks). split; [done|]. intros [|k' ks'] [Hd' He']; [done|].
    destruct Hd' as [Hk' Hd']. cbn [exchanges] in He'.
    assert (k' = k) as ->.
    { pose proof (exchanges_lookup_above i (exchange l (S i) k') ks' (S i) Hd' ltac:(lia)) as E.
      rewrite He', exchange_lookup_top, Hy in E by (lia || done). symmetry in E.
      by apply (NoDup_lookup _ _ _ _ Hnd E Hk). }
    f_equal. by apply Hu.
Qed.

(** *** The generator of the hashers *)
Definition words_ok (r : std_rng) : Prop := Forall (fun w => w < 2 ^ 32) (rng_buffer r).

Lemma chacha_block_ok rounds key counter : Forall (fun w => w < 2 ^ 32) (chacha_block rounds key counter).
Proof.
  unfold chacha_block. apply Forall_lookup_2. intros i w Hw.
  apply lookup_zip_with_Some in Hw as (x & y & -> & _). apply low32_lt.
Qed.

Lemma std_next_ok r : words_ok r -> (std_next r).1 < 2 ^ 32 /\ words_ok (std_next r).2.
Proof.
  unfold words_ok, std_next. intros H. destruct (rng_buffer r) as [|w ws] eqn:Eb.
  - pose proof (chacha_block_ok 6 (rng_key r) (rng_counter r)) as Hb.
    destruct (chacha_block _ _ _) as [|w ws]; [|by apply Forall_cons in Hb].
    cbn. rewrite Eb. split; [lia|constructor].
  - by apply Forall_cons in H.
Qed.

Lemma seed_ok seed : words_ok (std_seed_from_u64 seed).
Proof. constructor. Qed.

Lemma double_round_length s : length s = 16%nat -> length (double_round s) = 16%nat.
Proof.
  intros H. do 16 (destruct s as [|? s]; [done|]). destruct s; [|done]. cbv [double_round].
  repeat (destruct (quarter_round _ _ _ _) as [[[? ?] ?] ?]). reflexivity.
Qed.

Lemma chacha_block_length rounds key counter : length key = 8%nat -> length (chacha_block rounds key counter) = 16%nat.
Proof.
  intros Hk. unfold chacha_block. rewrite zip_with_length.
  assert (Hs : length (chacha_start key counter) = 16%nat) by (unfold chacha_start; rewrite !app_length, Hk; done).
  assert (Hi : length (Nat.iter rounds double_round (chacha_start key counter)) = 16%nat).
  { induction rounds as [|n IH]; [done|]. cbn [Nat.iter nat_rect]. by apply double_round_length. }
  rewrite Hs, Hi. done.
Qed.

Lemma seed_words_length n : forall state, length (seed_words n state) = n.
Proof. induction n; intros; cbn; [done|]. by f_equal. Qed.
