(** What the SuperMinHash variants draw, in terms of the key stream (SpecRng.v). *)
From stdpp Require Import base list.
From Coq Require Import NArith Lia.
From Verif Require Import Base Float MinHasher SuperMinHash SpecSuper Rng SpecRng RngFacts RngStream RngDraws RngUnit.
Local Open Scope N_scope.

Lemma accept_index_try n v : 0 < n < 2 ^ 32 -> try_word 32 0 n (single_zone n) v = accept_index n v.
Proof.
  intros Hn. unfold try_word, accept_index. destruct (single_zone_share n Hn) as (-> & _ & Hs).
  assert (Hpos : 0 < 2 ^ (32 - N.size n) * n) by (clear -Hs; assert (0 < 2 ^ 32) by reflexivity; lia). clear Hs.
  generalize dependent (2 ^ (32 - N.size n) * n). intros z Hz. cbv zeta.
  generalize (v * n mod 2 ^ 32) (v * n / 2 ^ 32). intros x y.
  destruct (N.leb_spec x (z - 1)), (N.ltb_spec x z); try lia; [by rewrite N.add_0_l|done].
Qed.

Lemma shuffle_reads {R A} (next : R -> N * R) fuel : forall i (l : list A) r l' r', N.of_nat (S i) < 2 ^ 32 ->
  shuffle_from next fuel i l r = Some (l', r') ->
  exists chunks ks, reads next r (concat chunks) r' /\ (length (concat chunks) <= 2 * fuel * i)%nat /\
    choices i chunks ks /\ l' = exchanges i l ks.
Proof.
  induction i as [|i IH]; intros l r l' r' Hi E; cbn [shuffle_from] in E.
  { simplify_eq. exists [], []. cbn. split; [done|]. split; [lia|]. done. }
  destruct (gen_index next fuel (N.of_nat (S i + 1)) r) as [[k r1]|] eqn:E1; [|done].
  cbn [mbind option_bind] in E. unfold gen_index in E1.
  apply draw_reads in E1 as (ws & Hr1 & Hl1 & _ & Ho); [|by left].
  apply IH in E as (chunks & ks & Hr & Hl & Hc & ->); [|lia].
  exists (ws :: chunks), (N.to_nat k :: ks). split; [cbn [concat]; by eapply reads_app|].
  split; [cbn [concat]; rewrite app_length; nia|]. split; [|done].
  cbn [choices]. split; [|done]. rewrite N2Nat.id, <- Ho. unfold wide. cbn [N.eqb Pos.eqb].
  replace (S i + 1)%nat with (S (S i)) by lia.
  apply list_omap_ext, Forall_Forall2_diag, Forall_true. intros v. symmetry. apply accept_index_try. split; [lia|exact Hi].
Qed.

Lemma units_reads {R} (next : R -> N * R) n : forall r us r',
  repeat_draw (fun r => Some (unit_sample next r)) n r = Some (us, r') ->
  exists ws, reads next r ws r' /\ length ws = n /\ us = unit_of_word <$> ws.
Proof.
  induction n as [|n IH]; intros r us r' E; cbn [repeat_draw] in E.
  { simplify_eq. by exists []. }
  cbn [mbind option_bind] in E. unfold unit_sample in E at 1. destruct (next r) as [v r1] eqn:E1.
  destruct (repeat_draw _ n r1) as [[xs r2]|] eqn:E2; [|done]. cbn [mbind option_bind] in E. simplify_eq.
  apply IH in E2 as (ws & Hr & <- & ->). exists (v :: ws). cbn [reads]. rewrite E1. done.
Qed.

Lemma stream_word seed i : key_stream 6 (key_of_seed seed) i < 2 ^ 32.
Proof.
  unfold key_stream, key_stream_block. cbv zeta.
  assert (Hi : (i mod 16 < 16)%nat) by (apply Nat.mod_upper_bound; lia).
  generalize dependent (i mod 16)%nat. intros j Hj.
  match goal with |- nth j (?f <$> seq 0 16) 0 < _ => assert (E : (f <$> seq 0 16) !! j = Some (f j)) end.
  { rewrite list_lookup_fmap, lookup_seq_lt by done. done. }
  apply nth_lookup_Some with (d := 0) in E. rewrite E. apply N.mod_lt. done.
Qed.

Lemma split_stream (s : nat -> N) (xs ys : list N) : xs ++ ys = s <$> seq 0 (length (xs ++ ys)) ->
  xs = s <$> seq 0 (length xs) /\ ys = s <$> seq (length xs) (length ys).
Proof.
  intros H. rewrite app_length, seq_app, fmap_app in H.
  apply app_inj_1 in H; [done|]. by rewrite fmap_length, seq_length.
Qed.

Lemma v1_inv fuel seed m p us : v1_draws fuel seed m = Some (p, us) ->
  exists r1 r2, shuffle_from std_next fuel (m - 1) (N.of_nat <$> seq 0 m) (std_seed_from_u64 seed) = Some (p, r1) /\
    repeat_draw (fun r => Some (unit_sample std_next r)) m r1 = Some (us, r2).
Proof.
  unfold v1_draws, shuffle. rewrite fmap_length, seq_length.
  destruct (shuffle_from std_next fuel _ _ _) as [[p' r1]|] eqn:E1; [|done]. cbn [mbind option_bind].
  destruct (repeat_draw _ m r1) as [[us' r2]|] eqn:E2; [|done]. cbn [mbind option_bind]. intros [= <- <-]. by exists r1, r2.
Qed.

Lemma v1_stream fuel seed m p us : N.of_nat m < 2 ^ 32 -> N.of_nat (2 * fuel * m + m) < 2 ^ 63 ->
  v1_draws fuel seed m = Some (p, us) ->
  exists chunks ks, let s := key_stream 6 (key_of_seed seed) in let c := length (concat chunks) in
    concat chunks = s <$> seq 0 c /\ choices (m - 1) chunks ks /\
    p = exchanges (m - 1) (N.of_nat <$> seq 0 m) ks /\
    us = (fun w => unit_frac (w / 512)) <$> (s <$> seq c m).
Proof.
  intros Hm Hf (r1 & r2 & E1 & E2)%v1_inv.
  destruct m as [|m].
  { cbn in E1, E2. simplify_eq. exists [], []. done. }
  apply shuffle_reads in E1 as (chunks & ks & Hr1 & Hl & Hc & ->); [|lia].
  apply units_reads in E2 as (ws & Hr2 & Hlw & ->).
  pose proof (reads_app _ _ _ _ _ _ Hr1 Hr2) as Hr.
  apply stream_reads in Hr; [|rewrite app_length; nia].
  apply split_stream in Hr as [Hw1 Hw2]. exists chunks, ks. cbv zeta. split; [done|]. split; [done|]. split; [done|].
  rewrite <- Hlw, <- Hw2. apply list_fmap_ext. intros i w Hw.
  apply unit_of_word_frac. rewrite Hw2 in Hw. apply list_lookup_fmap_Some in Hw as (j & _ & ->). apply stream_word.
Qed.

Lemma v2_reads fuel m n : N.of_nat m < 2 ^ 64 -> forall j r l, (j + n <= m)%nat -> words_ok r ->
  v2_draws_from fuel n m j r = Some l ->
  exists chunks r', reads std_next r (concat chunks) r' /\ (length (concat chunks) <= (2 * fuel + 1) * n)%nat /\ rounds m j chunks l.
Proof.
  intros Hm. induction n as [|n IH]; intros j r l Hj Hok E; cbn [v2_draws_from] in E.
  { simplify_eq. exists [], r. cbn. split; [done|]. split; [lia|]. done. }
  unfold unit_sample in E. pose proof (std_next_ok r Hok) as [Hw Hok1].
  destruct (std_next r) as [w r1] eqn:E0. cbn [fst snd] in *.
  destruct (uniform_sample _ _ _ _ _ r1) as [[k r2]|] eqn:E1; [|done]. cbn [mbind option_bind] in E.
  pose proof E1 as E1'. apply (sample_range std_next words_ok std_next_ok) in E1' as [_ Hok2]; [|lia|by right|done].
  unfold uniform_sample in E1. apply draw_reads in E1 as (ws & Hr1 & Hl1 & _ & Ho); [|by right].
  destruct (v2_draws_from fuel n m (S j) r2) as [rest|] eqn:E2; [|done]. cbn [mbind option_bind] in E. simplify_eq.
  apply IH in E2 as (chunks & r' & Hr & Hl & Hc); [|lia|done].
  exists ((w :: ws) :: chunks), r'. split.
  - cbn [concat app reads]. rewrite E0. split; [done|]. by eapply reads_app.
  - split; [cbn [concat app length]; rewrite app_length; nia|]. cbn [rounds]. split; [by apply unit_of_word_frac|].
    split; [|done]. rewrite <- Ho. apply list_omap_ext, Forall_Forall2_diag, Forall_true. intros v.
    symmetry. apply accept_try; lia.
Qed.

Lemma v2_stream fuel seed m l : N.of_nat m < 2 ^ 64 -> N.of_nat ((2 * fuel + 1) * m) < 2 ^ 63 ->
  v2_draws fuel seed m = Some l ->
  exists chunks, concat chunks = key_stream 6 (key_of_seed seed) <$> seq 0 (length (concat chunks)) /\ rounds m 0 chunks l.
Proof.
  intros Hm Hf E. apply v2_reads in E as (chunks & r' & Hr & Hl & Hc); [|done|lia|apply seed_ok].
  apply stream_reads in Hr; [|lia]. by exists chunks.
Qed.

(** More rounds do not change the draws. *)
Lemma v1_fuel fuel fuel' seed m d : (fuel <= fuel')%nat -> v1_draws fuel seed m = Some d -> v1_draws fuel' seed m = Some d.
Proof.
  intros Hle E. destruct d as [p us]. apply v1_inv in E as (r1 & r2 & E1 & E2).
  unfold v1_draws, shuffle. rewrite fmap_length, seq_length.
  rewrite (shuffle_from_fuel _ _ _ Hle _ _ _ _ E1). cbn [mbind option_bind]. rewrite E2. done.
Qed.
Lemma v2_fuel fuel fuel' m n : (fuel <= fuel')%nat -> forall j r l,
  v2_draws_from fuel n m j r = Some l -> v2_draws_from fuel' n m j r = Some l.
Proof.
  intros Hle. induction n as [|n IH]; intros j r l E; cbn [v2_draws_from] in *; [done|].
  destruct (unit_sample std_next r) as [u r1].
  destruct (uniform_sample std_next fuel _ _ _ r1) as [[k r2]|] eqn:E1; [|done]. cbn [mbind option_bind] in E.
  unfold uniform_sample in *. rewrite (draw_fuel _ _ _ _ _ _ _ _ _ Hle E1). cbn [mbind option_bind].
  destruct (v2_draws_from fuel n m (S j) r2) as [rest|] eqn:E2; [|done]. by rewrite (IH _ _ _ E2).
Qed.

Lemma v1_fields fuel seed m p us : v1_draws fuel seed m = Some (p, us) ->
  std_shuffle fuel seed m = p /\ (forall j u, us !! j = Some u -> std_unit1 fuel seed m j = u).
Proof. intros E. unfold std_shuffle, std_unit1. rewrite E. split; [done|]. intros j u Hu. by rewrite Hu. Qed.
Lemma v2_fields fuel seed m l : v2_draws fuel seed m = Some l ->
  forall j u k, l !! j = Some (u, k) -> std_unit2 fuel seed m j = u /\ std_pick fuel seed m j = N.to_nat k.
Proof. intros E j u k Hj. unfold std_unit2, std_pick. rewrite E, Hj. done. Qed.
