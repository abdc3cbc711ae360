(** What the hashers draw from the generator (Rng.v), in terms of the key stream (SpecRng.v). *)
From stdpp Require Import base list.
From Coq Require Import NArith Lia.
From Verif Require Import Base Float MinHasher SuperMinHash SpecSuper Rng SpecRng RngFacts RngStream.
Local Open Scope N_scope.

Lemma accept_try bits low high v : low < high -> high - low < 2 ^ bits ->
  try_word bits low (high - low) (uniform_zone bits (high - low)) v = accept bits low high v.
Proof.
  intros H1 H2. unfold try_word, accept. destruct (uniform_zone_share bits (high - low)) as (-> & Hs & _); [lia|].
  assert (Hpos : 0 < 2 ^ bits / (high - low) * (high - low)) by (apply N.mul_pos_pos; lia).
  generalize dependent (2 ^ bits / (high - low) * (high - low)). intros n Hn. cbv zeta.
  generalize (v * (high - low) mod 2 ^ bits). intros m.
  destruct (N.leb_spec m (n - 1)), (N.ltb_spec m n); try done; lia.
Qed.

Section Reads.
Context {R : Type} (next : R -> N * R).

(** Reading the words [ws] leads from [r] to [r']. *)
Fixpoint reads (r : R) (ws : list N) (r' : R) : Prop :=
  match ws with [] => r' = r | w :: ws' => (next r).1 = w /\ reads (next r).2 ws' r' end.

Lemma reads_app ws : forall r r1 r2 ws', reads r ws r1 -> reads r1 ws' r2 -> reads r (ws ++ ws') r2.
Proof.
  induction ws as [|w ws IH]; intros r r1 r2 ws' H1 H2; cbn in *; [by subst|].
  destruct H1 as [H1 H3]. split; [done|]. by eapply IH.
Qed.

Lemma reads_repeat ws : forall r r', reads r ws r' -> repeat_draw (fun r => Some (next r)) (length ws) r = Some (ws, r').
Proof.
  induction ws as [|w ws IH]; intros r r' H; cbn [reads length repeat_draw] in *; [by subst|].
  destruct H as [H1 H2]. destruct (next r) as [w' r1]. cbn [fst snd mbind option_bind] in *. subst w'.
  rewrite (IH _ _ H2). done.
Qed.

(** The words a loop uses: rejected ones and then the one accepted. *)
Lemma draw_reads bits low range zone : bits = 32 \/ bits = 64 -> forall fuel r x r',
  draw next fuel bits low range zone r = Some (x, r') ->
  exists ws, reads r ws r' /\ (length ws <= 2 * fuel)%nat /\
    (forall ws', wide bits (ws ++ ws') = wide bits ws ++ wide bits ws') /\
    omap (try_word bits low range zone) (wide bits ws) = [x].
Proof.
  intros Hb. induction fuel as [|fuel IH]; intros r x r' E; [done|]. cbn [draw] in E.
  assert (Hone : exists us, reads r us (next_word next bits r).2 /\ (length us <= 2)%nat /\
    (forall ws', wide bits (us ++ ws') = (next_word next bits r).1 :: wide bits ws')).
  { destruct Hb as [-> | ->]; unfold next_word; cbn [N.eqb Pos.eqb].
    - exists [(next r).1]. cbn [reads length]. split; [done|]. split; [lia|]. done.
    - exists [(next r).1; (next (next r).2).1]. unfold next_u64.
      destruct (next r) as [lo r1] eqn:E1. cbn [fst snd]. destruct (next r1) as [hi r2] eqn:E2.
      cbn [reads fst snd]. rewrite E1. cbn [fst snd]. rewrite E2. split; [done|]. split; [cbn; lia|].
      intros ws'. unfold wide. cbn [N.eqb Pos.eqb app pairs]. f_equal. rewrite N.add_comm. done. }
  destruct Hone as (us & Hr & Hl & Hw). destruct (next_word next bits r) as [v r1]. cbn [fst snd] in *.
  assert (Hus : wide bits us = [v]).
  { pose proof (Hw []) as H0. rewrite app_nil_r in H0. rewrite H0. f_equal.
    by destruct Hb as [-> | ->]. }
  destruct (try_word bits low range zone v) as [y|] eqn:Et.
  - simplify_eq. exists us. split; [done|]. split; [lia|]. split.
    + intros ws'. by rewrite Hw, Hus.
    + rewrite Hus. cbn. by rewrite Et.
  - apply IH in E as (ws & Hr2 & Hl2 & Hw2 & Ho). exists (us ++ ws). split; [by eapply reads_app|].
    split; [rewrite app_length; lia|]. split.
    + intros ws'. rewrite <- app_assoc, !Hw, Hw2. done.
    + rewrite Hw. cbn. by rewrite Et.
Qed.

Lemma repeat_reads bits low range zone fuel : bits = 32 \/ bits = 64 -> forall n r xs r',
  repeat_draw (draw next fuel bits low range zone) n r = Some (xs, r') ->
  exists ws, reads r ws r' /\ (length ws <= 2 * fuel * n)%nat /\
    (forall ws', wide bits (ws ++ ws') = wide bits ws ++ wide bits ws') /\
    omap (try_word bits low range zone) (wide bits ws) = xs.
Proof.
  intros Hb. induction n as [|n IH]; intros r xs r' E; cbn [repeat_draw] in E.
  { simplify_eq. exists []. split; [done|]. split; [cbn [length]; lia|]. destruct Hb as [-> | ->]; done. }
  destruct (draw next fuel bits low range zone r) as [[x r1]|] eqn:E1; [|done]. cbn [mbind option_bind] in E.
  destruct (repeat_draw _ n r1) as [[ys r2]|] eqn:E2; [|done]. cbn [mbind option_bind] in E. simplify_eq.
  apply draw_reads in E1 as (us & Hr1 & Hl1 & Hw1 & Ho1); [|done].
  apply IH in E2 as (ws & Hr2 & Hl2 & Hw2 & Ho2).
  exists (us ++ ws). split; [by eapply reads_app|]. split; [rewrite app_length; nia|]. split.
  - intros ws'. by rewrite <- app_assoc, !Hw1, Hw2, app_assoc.
  - rewrite Hw1, omap_app, Ho1, Ho2. done.
Qed.
End Reads.

Lemma stream_reads seed ws r' : N.of_nat (length ws) < 2 ^ 63 -> reads std_next (std_seed_from_u64 seed) ws r' ->
  ws = key_stream 6 (key_of_seed seed) <$> seq 0 (length ws).
Proof.
  intros Hn Hr. apply reads_repeat in Hr. apply seed_stream in Hr as [_ Hs]; [|done].
  apply list_eq. intros i. rewrite list_lookup_fmap. destruct (decide (i < length ws)%nat) as [Hi|Hi].
  - rewrite Hs, lookup_seq_lt by done. done.
  - rewrite lookup_ge_None_2 by lia. rewrite lookup_ge_None_2; [done|]. rewrite seq_length. lia.
Qed.

(** *** The coefficients *)
Lemma kind_range k : (word_bits k = 32 \/ word_bits k = 64) /\ 1 < prime k /\ prime k < 2 ^ word_bits k.
Proof. destruct k; (split; [by left + right|split; reflexivity]). Qed.

Lemma std_hasher_inv fuel k n seed h : std_hasher fuel k n seed = Some h ->
  exists r1 r2, num_hashes h = n /\
    repeat_draw (uniform_sample std_next fuel (word_bits k) 1 (prime k)) n (std_seed_from_u64 seed) = Some (coef_a h, r1) /\
    repeat_draw (uniform_sample std_next fuel (word_bits k) 0 (prime k)) n r1 = Some (coef_b h, r2).
Proof.
  unfold std_hasher. destruct (repeat_draw _ n _) as [[a r1]|] eqn:E1; [|done]. cbn [mbind option_bind].
  destruct (repeat_draw _ n r1) as [[b r2]|] eqn:E2; [|done]. cbn [mbind option_bind]. intros [= <-].
  by exists r1, r2.
Qed.

Lemma hasher_coefficients fuel k n seed h : std_hasher fuel k n seed = Some h ->
  num_hashes h = n /\ length (coef_a h) = n /\ length (coef_b h) = n /\
  Forall (fun a => 1 <= a < prime k) (coef_a h) /\ Forall (fun b => b < prime k) (coef_b h).
Proof.
  intros (r1 & r2 & Hn & E1 & E2)%std_hasher_inv. destruct (kind_range k) as (Hb & Hp & _).
  destruct (repeat_draw_forall words_ok _ (fun a => 1 <= a < prime k)
    (fun r x r' Hr E => sample_range std_next words_ok std_next_ok fuel _ 1 _ r x r' Hp Hb Hr E) _ _ _ _ (seed_ok seed) E1)
    as (Ha & Hfa & Hr1).
  assert (Hp0 : 0 < prime k) by (clear -Hp; lia).
  destruct (repeat_draw_forall words_ok _ (fun a => 0 <= a < prime k)
    (fun r x r' Hr E => sample_range std_next words_ok std_next_ok fuel _ 0 _ r x r' Hp0 Hb Hr E) _ _ _ _ Hr1 E2)
    as (Hb' & Hfb & _).
  split; [done|]. split; [done|]. split; [done|]. split; [done|].
  eapply Forall_impl; [exact Hfb|]. cbn. tauto.
Qed.

Lemma hasher_draws fuel k n seed h : std_hasher fuel k n seed = Some h ->
  exists draws, h = new_with_hasher_and_seed draws n seed.
Proof.
  intros Eh. pose proof (hasher_coefficients _ _ _ _ _ Eh) as (Hn & Ha & Hb & _).
  exists (fun _ n j => nth j (coef_a h ++ coef_b h) 0). destruct h as [a b m]. cbn [coef_a coef_b num_hashes] in *. subst m.
  unfold new_with_hasher_and_seed. f_equal.
  - apply list_eq. intros i. rewrite list_lookup_fmap. destruct (decide (i < n)%nat) as [Hi|Hi].
    + rewrite lookup_seq_lt by done. cbn. destruct (lookup_lt_is_Some_2 a i ltac:(lia)) as [x Hx]. rewrite Hx.
      f_equal. symmetry. apply nth_lookup_Some. by apply lookup_app_l_Some.
    + rewrite lookup_ge_None_2 by lia. rewrite lookup_ge_None_2; [done|]. rewrite seq_length. lia.
  - apply list_eq. intros i. rewrite list_lookup_fmap. destruct (decide (i < n)%nat) as [Hi|Hi].
    + rewrite lookup_seq_lt by done. cbn. destruct (lookup_lt_is_Some_2 b i ltac:(lia)) as [x Hx]. rewrite Hx.
      f_equal. symmetry. apply nth_lookup_Some. rewrite lookup_app_r by lia. rewrite <- Hx. f_equal. lia.
    + rewrite lookup_ge_None_2 by lia. rewrite lookup_ge_None_2; [done|]. rewrite seq_length. lia.
Qed.

Lemma hasher_stream fuel k n seed h : std_hasher fuel k n seed = Some h -> N.of_nat (4 * fuel * n) < 2 ^ 63 ->
  exists c d, let s := key_stream 6 (key_of_seed seed) in
    coef_a h = omap (accept (word_bits k) 1 (prime k)) (wide (word_bits k) (s <$> seq 0 c)) /\
    coef_b h = omap (accept (word_bits k) 0 (prime k)) (wide (word_bits k) (s <$> seq c d)).
Proof.
  intros (r1 & r2 & Hn & E1 & E2)%std_hasher_inv Hf. destruct (kind_range k) as (Hb & Hp & Hp').
  unfold uniform_sample in E1, E2.
  apply repeat_reads in E1 as (ws1 & Hr1 & Hl1 & _ & Ho1); [|done].
  apply repeat_reads in E2 as (ws2 & Hr2 & Hl2 & _ & Ho2); [|done].
  pose proof (reads_app _ _ _ _ _ _ Hr1 Hr2) as Hr. apply stream_reads in Hr; [|rewrite app_length; nia].
  rewrite app_length, seq_app, fmap_app in Hr.
  apply app_inj_1 in Hr as [Hw1 Hw2]; [|by rewrite fmap_length, seq_length].
  exists (length ws1), (length ws2). cbv zeta. rewrite <- Hw1. cbn [Nat.add] in Hw2. rewrite <- Hw2, <- Ho1, <- Ho2.
  split; apply list_omap_ext, Forall_Forall2_diag, Forall_true; intros v; apply accept_try; lia.
Qed.

Lemma multipliers_prefix fuel k n n' seed h h' : (n <= n')%nat ->
  std_hasher fuel k n seed = Some h -> std_hasher fuel k n' seed = Some h' -> coef_a h = take n (coef_a h').
Proof.
  intros Hle (r1 & r2 & _ & E1 & _)%std_hasher_inv (r3 & r4 & _ & E2 & _)%std_hasher_inv.
  by eapply repeat_draw_prefix.
Qed.

Lemma std_hasher_fuel fuel fuel' k n seed h : (fuel <= fuel')%nat ->
  std_hasher fuel k n seed = Some h -> std_hasher fuel' k n seed = Some h.
Proof.
  intros Hle. unfold std_hasher.
  assert (Hs : forall low r out, uniform_sample std_next fuel (word_bits k) low (prime k) r = Some out ->
    uniform_sample std_next fuel' (word_bits k) low (prime k) r = Some out).
  { intros low r out. unfold uniform_sample. by apply draw_fuel. }
  destruct (repeat_draw _ n (std_seed_from_u64 seed)) as [[a r1]|] eqn:E1; [|done].
  rewrite (repeat_draw_fuel _ _ (Hs 1) _ _ _ E1). cbn [mbind option_bind].
  destruct (repeat_draw _ n r1) as [[b r2]|] eqn:E2; [|done]. by rewrite (repeat_draw_fuel _ _ (Hs 0) _ _ _ E2).
Qed.

(** *** The statements of PropsRng.v *)
Lemma uniform_fair bits low high : low < high -> high - low < 2 ^ bits ->
  let share := 2 ^ bits / (high - low) in
  fair (try_word bits low (high - low) (uniform_zone bits (high - low))) (2 ^ bits) low high share /\
  2 ^ bits <= 2 * (share * (high - low)).
Proof.
  intros H1 H2. cbv zeta. destruct (uniform_zone_share bits (high - low)) as (Hz & Hs & Hle); [lia|]. split.
  - replace high with (low + (high - low)) at 3 by lia. by apply try_word_fair; [lia|..].
  - pose proof (N.div_mod (2 ^ bits) (high - low) ltac:(lia)) as Hd.
    pose proof (N.mod_lt (2 ^ bits) (high - low) ltac:(lia)) as Hm.
    generalize dependent (2 ^ bits mod (high - low)). generalize dependent (2 ^ bits / (high - low)).
    generalize dependent (2 ^ bits). intros. nia.
Qed.

Lemma gen_index_fair n : 0 < n < 2 ^ 32 ->
  let share := 2 ^ (32 - N.size n) in
  fair (try_word 32 0 n (single_zone n)) (2 ^ 32) 0 n share /\ 2 ^ 32 <= 2 * (share * n).
Proof.
  intros Hn. cbv zeta. destruct (single_zone_share n Hn) as (Hz & Hle & Hge). split; [|done].
  replace n with (0 + n) at 3 by lia. apply try_word_fair; [lia| |done|done].
  apply N.neq_0_lt_0, N.pow_nonzero. lia.
Qed.

Lemma std_sample fuel fuel' bits low high r x r' : bits = 32 \/ bits = 64 -> low < high -> words_ok r ->
  uniform_sample std_next fuel bits low high r = Some (x, r') ->
  low <= x < high /\ words_ok r' /\
  ((fuel <= fuel')%nat -> uniform_sample std_next fuel' bits low high r = Some (x, r')).
Proof.
  intros Hb Hlt Hr E. destruct (sample_range std_next words_ok std_next_ok _ _ _ _ _ _ _ Hlt Hb Hr E) as [H1 H2].
  split; [done|]. split; [done|]. intros Hle. by eapply draw_fuel.
Qed.

Lemma std_shuffled {A} fuel (l l' : list A) seed r :
  shuffle std_next fuel l (std_seed_from_u64 seed) = Some (l', r) ->
  exists ks, downward (length l - 1) ks /\ l' = exchanges (length l - 1) l ks /\ l' ≡ₚ l.
Proof.
  intros E. apply (shuffle_from_exchanges std_next words_ok std_next_ok) in E as [(ks & Hd & ->) _]; [|apply seed_ok].
  exists ks. split; [done|]. split; [done|]. apply exchanges_perm.
Qed.

Lemma orders_unique {A} (l l' : list A) : NoDup l -> l ≠ [] -> l' ≡ₚ l ->
  exists! ks, downward (length l - 1) ks /\ exchanges (length l - 1) l ks = l'.
Proof.
  intros Hnd Hne Hp. assert (Hlen : (0 < length l)%nat) by (destruct l; [done|cbn; lia]).
  apply exchanges_unique; [done|done|lia|]. intros j Hj. rewrite !lookup_ge_None_2; [done|lia|].
  rewrite (Permutation_length Hp). lia.
Qed.

Lemma std_coefficients fuel k n seed h : std_hasher fuel k n seed = Some h ->
  num_hashes h = n /\ length (coef_a h) = n /\ length (coef_b h) = n /\
  Forall (fun a => 1 <= a < prime k) (coef_a h) /\ Forall (fun b => b < prime k) (coef_b h) /\
  (exists draws, h = new_with_hasher_and_seed draws n seed) /\
  forall fuel', (fuel <= fuel')%nat -> std_hasher fuel' k n seed = Some h.
Proof.
  intros E. destruct (hasher_coefficients _ _ _ _ _ E) as (H1 & H2 & H3 & H4 & H5).
  split; [done|]. split; [done|]. split; [done|]. split; [done|]. split; [done|].
  split; [by eapply hasher_draws|]. intros fuel' Hle. by eapply std_hasher_fuel.
Qed.
