(** The streaming SipHash of the model is the SipHash of all the bytes written. *)
From stdpp Require Import base list.
From Coq Require Import NArith Lia.
From Verif Require Import Base Digests SpecDigests RngStream.
Local Open Scope N_scope.

(** ** Words *)
Lemma pow_pos n : 0 < 2 ^ n.
Proof. apply N.neq_0_lt_0, N.pow_nonzero. lia. Qed.

Lemma rot_turn W x n : n <= W -> x < 2 ^ W -> rot_w W x n = turn W x n /\ turn W x n < 2 ^ W.
Proof.
  intros Hn Hx. unfold rot_w, turn. rewrite N.shiftl_mul_pow2, N.shiftr_div_pow2.
  assert (Hp : 2 ^ n * 2 ^ (W - n) = 2 ^ W) by (rewrite <- N.pow_add_r; f_equal; lia).
  assert (E : (x * 2 ^ n) mod 2 ^ W = 2 ^ n * (x mod 2 ^ (W - n))).
  { rewrite <- Hp, (N.mul_comm x). apply N.mul_mod_distr_l; apply N.pow_nonzero; lia. }
  rewrite E.
  assert (Ht : x / 2 ^ (W - n) < 2 ^ n).
  { apply N.div_lt_upper_bound; [apply N.pow_nonzero; lia|]. by rewrite N.mul_comm, Hp. }
  split.
  - apply (lor_add _ _ n); [|done]. rewrite N.mul_comm. apply N.mod_mul, N.pow_nonzero. lia.
  - pose proof (N.mod_lt x (2 ^ (W - n)) ltac:(apply N.pow_nonzero; lia)) as Hm.
    generalize dependent (x mod 2 ^ (W - n)). generalize dependent (x / 2 ^ (W - n)).
    generalize dependent (2 ^ (W - n)). generalize dependent (2 ^ n). intros. nia.
Qed.

Lemma plus_lt W x y : plus W x y < 2 ^ W.
Proof. apply N.mod_lt, N.pow_nonzero. lia. Qed.

(** ** Rounds *)
Definition as_tuple (s : sip_state) : N * N * N * N := (v0 s, v1 s, v2 s, v3 s).
Definition words_below (s : N * N * N * N) : Prop :=
  let '(a, b, c, d) := s in a < 2 ^ 64 /\ b < 2 ^ 64 /\ c < 2 ^ 64 /\ d < 2 ^ 64.

Lemma round_mix s : words_below (as_tuple s) -> as_tuple (sip_round s) = mix (as_tuple s) /\ words_below (mix (as_tuple s)).
Proof.
  destruct s as [a b c d]. intros (Ha & Hb & Hc & Hd). unfold sip_round, mix, as_tuple. cbn [v0 v1 v2 v3] in *.
  change (add_w 64) with (plus 64).
  pose proof (plus_lt 64 a b) as Ha1. set (a1 := plus 64 a b) in *. clearbody a1.
  pose proof (plus_lt 64 c d) as Hc1. set (c1 := plus 64 c d) in *. clearbody c1.
  destruct (rot_turn 64 b 13 ltac:(lia) Hb) as [-> Hb1]. destruct (rot_turn 64 d 16 ltac:(lia) Hd) as [-> Hd1].
  destruct (rot_turn 64 a1 32 ltac:(lia) Ha1) as [-> Ha1'].
  pose proof (lxor_lt 64 _ _ Hb1 Ha1) as Hb2. set (b1 := N.lxor (turn 64 b 13) a1) in *. clearbody b1.
  pose proof (lxor_lt 64 _ _ Hd1 Hc1) as Hd2. set (d1 := N.lxor (turn 64 d 16) c1) in *. clearbody d1.
  pose proof (plus_lt 64 (turn 64 a1 32) d1) as Ha2. set (a2 := plus 64 (turn 64 a1 32) d1) in *. clearbody a2.
  pose proof (plus_lt 64 c1 b1) as Hc2. set (c2 := plus 64 c1 b1) in *. clearbody c2.
  destruct (rot_turn 64 d1 21 ltac:(lia) Hd2) as [-> Hd3]. destruct (rot_turn 64 b1 17 ltac:(lia) Hb2) as [-> Hb3].
  destruct (rot_turn 64 c2 32 ltac:(lia) Hc2) as [-> Hc3].
  split; [done|]. split; [done|]. split; [by apply lxor_lt|]. split; [done|by apply lxor_lt].
Qed.

Lemma iter_mix n s : words_below s -> words_below (Nat.iter n mix s).
Proof.
  induction n as [|n IH]; intros H; [done|]. change (Nat.iter (S n) mix s) with (mix (Nat.iter n mix s)). specialize (IH H).
  destruct (Nat.iter n mix s) as [[[a b] c] d]. exact (proj2 (round_mix (SipState a b c d) IH)).
Qed.

Lemma c_rounds_mix s : words_below (as_tuple s) -> as_tuple (c_rounds s) = Nat.iter 2 mix (as_tuple s).
Proof.
  intros H. unfold c_rounds. destruct (round_mix s H) as [E1 B1]. rewrite <- E1 in B1.
  destruct (round_mix _ B1) as [E2 _]. by rewrite E2, E1.
Qed.

Lemma d_rounds_mix s : words_below (as_tuple s) -> as_tuple (d_rounds s) = Nat.iter 4 mix (as_tuple s).
Proof.
  intros H. unfold d_rounds. destruct (round_mix s H) as [E1 B1]. rewrite <- E1 in B1.
  destruct (round_mix _ B1) as [E2 B2]. rewrite <- E2 in B2.
  destruct (round_mix _ B2) as [E3 B3]. rewrite <- E3 in B3.
  destruct (round_mix _ B3) as [E4 _]. by rewrite E4, E3, E2, E1.
Qed.

Lemma absorb_take_in s m : words_below (as_tuple s) -> m < 2 ^ 64 ->
  as_tuple (sip_absorb s m) = take_in (as_tuple s) m /\ words_below (take_in (as_tuple s) m).
Proof.
  intros H Hm. destruct s as [a b c d]. unfold sip_absorb, take_in. cbn [v0 v1 v2 v3 as_tuple] in *.
  destruct H as (Ha & Hb & Hc & Hd).
  assert (H1 : words_below (as_tuple (SipState a b c (N.lxor d m)))).
  { split; [done|]. split; [done|]. split; [done|]. by apply lxor_lt. }
  pose proof (c_rounds_mix _ H1) as E. pose proof (iter_mix 2 _ H1) as B.
  change (as_tuple (SipState a b c (N.lxor d m))) with (a, b, c, N.lxor d m) in E, B.
  rewrite <- E in B |- *. destruct (c_rounds (SipState a b c (N.lxor d m))) as [a' b' c' d'].
  cbn [as_tuple v0 v1 v2 v3]. destruct B as (B0 & B1 & B2 & B3).
  split; [done|]. split; [by apply lxor_lt|done].
Qed.

(** ** Pieces *)
Lemma pieces_short {A} fuel n (l : list A) : (length l < n)%nat -> pieces fuel n l = [].
Proof. intros H. destruct fuel; [done|]. cbn [pieces]. by rewrite (proj2 (Nat.leb_gt n (length l)) H). Qed.

Lemma pieces_fuel {A} n (Hn : (0 < n)%nat) (l : list A) fuel fuel' : (length l <= fuel)%nat -> (length l <= fuel')%nat ->
  pieces fuel n l = pieces fuel' n l.
Proof.
  revert l fuel'. induction fuel as [|fuel IH]; intros l fuel' H H'.
  - symmetry. apply pieces_short. lia.
  - destruct fuel' as [|fuel']; [apply pieces_short; lia|]. cbn [pieces].
    destruct (n <=? length l)%nat eqn:E; [|done]. apply Nat.leb_le in E. f_equal.
    apply IH; rewrite drop_length; lia.
Qed.

Lemma pieces_cons {A} n (Hn : (0 < n)%nat) (l : list A) : (n <= length l)%nat ->
  pieces (length l) n l = take n l :: pieces (length (drop n l)) n (drop n l).
Proof.
  intros H. destruct (length l) as [|k] eqn:E; [lia|]. cbn [pieces].
  rewrite E, (proj2 (Nat.leb_le n (S k)) H). f_equal.
  apply pieces_fuel; [done| |lia]. rewrite drop_length. lia.
Qed.

Lemma pieces_app {A} n k (Hn : (0 < n)%nat) (l m : list A) : length l = (k * n)%nat ->
  pieces (length (l ++ m)) n (l ++ m) = pieces (length l) n l ++ pieces (length m) n m.
Proof.
  revert l. induction k as [|k IH]; intros l Hl.
  - destruct l; [done|discriminate].
  - rewrite (pieces_cons n Hn l) by lia. rewrite (pieces_cons n Hn (l ++ m)) by (rewrite app_length; lia).
    rewrite take_app_le, drop_app_le by lia. cbn [app]. f_equal. apply IH. rewrite drop_length. lia.
Qed.

Lemma pieces_seq {A} n k (Hn : (0 < n)%nat) (l : list A) : length l = (k * n)%nat ->
  pieces (length l) n l = (fun i => take n (drop (n * i) l)) <$> seq 0 k.
Proof.
  revert l. induction k as [|k IH]; intros l Hl.
  - destruct l; [done|discriminate].
  - rewrite (pieces_cons n Hn l) by lia. cbn [seq fmap list_fmap]. rewrite Nat.mul_0_r, drop_0. f_equal.
    rewrite IH by (rewrite drop_length; lia). rewrite <- seq_shift, <- list_fmap_compose.
    apply list_fmap_ext. intros i x _. unfold compose. rewrite drop_drop. do 2 f_equal. lia.
Qed.

(** ** Little-endian numbers *)
Lemma le_little l : le_number l = little l.
Proof. induction l as [|b l IH]; [done|]. cbn. by rewrite IH. Qed.

Lemma little_app l m : little (l ++ m) = little l + 256 ^ N.of_nat (length l) * little m.
Proof.
  induction l as [|b l IH]; [change (little (@nil N)) with 0; change (256 ^ N.of_nat (length (@nil N))) with 1; cbn [app]; lia|]. cbn [app length little foldr] in *. fold (little (l ++ m)). fold (little l). rewrite IH.
  rewrite Nat2N.inj_succ, N.pow_succ_r by lia. lia.
Qed.

Lemma little_lt l : is_bytes l -> little l < 256 ^ N.of_nat (length l).
Proof.
  induction l as [|b l IH]; intros H; [done|]. apply Forall_cons in H as [Hb Hl]. specialize (IH Hl).
  cbn [length little foldr] in *. fold (little l). rewrite Nat2N.inj_succ, N.pow_succ_r by lia. nia.
Qed.

Lemma little_zeros k : little (replicate k 0) = 0.
Proof. induction k as [|k IH]; [done|]. change (little (replicate (S k) 0)) with (0 + 256 * little (replicate k 0)). by rewrite IH. Qed.

Lemma little_lor l m : is_bytes l ->
  N.lor (little l) (N.shiftl (little m) (8 * N.of_nat (length l))) = little (l ++ m).
Proof.
  intros Hl. rewrite little_app, N.shiftl_mul_pow2, N.lor_comm.
  rewrite (lor_add _ _ (8 * N.of_nat (length l))).
  - rewrite N.pow_mul_r. change (2 ^ 8) with 256. lia.
  - apply N.mod_mul, N.pow_nonzero. lia.
  - rewrite N.pow_mul_r. change (2 ^ 8) with 256. by apply little_lt.
Qed.

(** ** Streaming *)

(** The number of bytes absorbed, and the words they make. *)
Definition full (l : list N) : nat := (8 * (length l / 8))%nat.
Definition absorbed (l : list N) : list N := little <$> pieces (length (take (full l) l)) 8 (take (full l) l).

(** The hasher has been started with [s0] and has read [l]. *)
Record reads (s0 : N * N * N * N) (l : list N) (h : sip_hasher) : Prop := Reads {
  r_len : sip_length h = length l;
  r_st : as_tuple (sip_st h) = foldl take_in s0 (absorbed l);
  r_ok : words_below (as_tuple (sip_st h));
  r_tail : sip_tail h = little (drop (full l) l);
  r_ntail : sip_ntail h = (length l mod 8)%nat;
}.

Lemma is_bytes_take l n : is_bytes l -> is_bytes (take n l).
Proof. apply Forall_take. Qed.
Lemma is_bytes_drop l n : is_bytes l -> is_bytes (drop n l).
Proof. apply Forall_drop. Qed.

Lemma word_lt l : is_bytes l -> (length l <= 8)%nat -> little l < 2 ^ 64.
Proof.
  intros Hb Hl. pose proof (little_lt l Hb) as H. change (2 ^ 64) with (256 ^ 8).
  eapply N.lt_le_trans; [exact H|]. apply N.pow_le_mono_r; lia.
Qed.

Lemma loop_spec msg : is_bytes msg -> forall k fuel i s, (i + 8 * k <= length msg)%nat -> (k <= fuel)%nat ->
  words_below (as_tuple s) ->
  forall bound, (k = 0 \/ i + 8 * (k - 1) < bound)%nat -> (bound <= i + 8 * k)%nat ->
  let r := sip_loop fuel msg i bound s in
  as_tuple r.1 = foldl take_in (as_tuple s) (little <$> pieces (8 * k) 8 (take (8 * k) (drop i msg))) /\
  words_below (as_tuple r.1) /\ r.2 = (i + 8 * k)%nat.
Proof.
  intros Hm. induction k as [|k IH]; intros fuel i s Hi Hf Hs bound H1 H2.
  - assert (E : sip_loop fuel msg i bound s = (s, i)).
    { destruct fuel; [done|]. cbn [sip_loop]. by rewrite (proj2 (Nat.ltb_ge i bound)) by lia. }
    cbn zeta. rewrite E. cbn. split; [done|]. split; [done|lia].
  - destruct fuel as [|fuel]; [lia|]. cbn zeta. cbn [sip_loop]. rewrite (proj2 (Nat.ltb_lt i bound)) by lia.
    rewrite le_little.
    destruct (absorb_take_in s (little (take 8 (drop i msg))) Hs) as [E B].
    { apply word_lt; [by apply is_bytes_take, is_bytes_drop|]. rewrite take_length. lia. }
    rewrite <- E in B.
    destruct (IH fuel (i + 8)%nat (sip_absorb s (little (take 8 (drop i msg)))) ltac:(lia) ltac:(lia) B bound ltac:(lia) ltac:(lia)) as (E1 & B1 & E2).
    split; [|split; [exact B1|rewrite E2; lia]]. rewrite E1, E.
    assert (Hlen : length (take (8 * S k) (drop i msg)) = (8 * S k)%nat) by (rewrite take_length, drop_length; lia).
    assert (Ep : pieces (8 * S k) 8 (take (8 * S k) (drop i msg)) =
      take 8 (drop i msg) :: pieces (8 * k) 8 (take (8 * k) (drop (i + 8) msg))).
    { transitivity (pieces (length (take (8 * S k) (drop i msg))) 8 (take (8 * S k) (drop i msg))); [by rewrite Hlen|].
      rewrite (pieces_cons 8) by lia. rewrite take_take, skipn_firstn_comm, drop_drop.
      rewrite take_length, drop_length.
      replace (8 `min` (8 * S k))%nat with 8%nat by lia. replace (8 * S k - 8)%nat with (8 * k)%nat by lia.
      replace ((8 * k) `min` (length msg - (i + 8)))%nat with (8 * k)%nat by lia. done. }
    rewrite Ep. done.
Qed.

Lemma flushed_spec s0 l msg needed total s :
  is_bytes msg -> (needed <= length msg)%nat -> (needed < 8)%nat -> ((length l + needed) mod 8 = 0)%nat ->
  (needed = 0 -> length l mod 8 = 0)%nat ->
  total = (length l + length msg)%nat ->
  as_tuple s = foldl take_in s0 (little <$> pieces (length l + needed) 8 (l ++ take needed msg)) ->
  words_below (as_tuple s) ->
  reads s0 (l ++ msg) (sip_flushed (length msg) needed msg total s).
Proof.
  intros Hm Hn Hn8 Hd _ -> Es Hs. unfold sip_flushed.
  set (len := (length msg - needed)%nat). set (left := (len mod 8)%nat).
  pose proof (Nat.div_mod len 8 ltac:(lia)) as Hdm. fold left in Hdm.
  pose proof (Nat.mod_upper_bound len 8 ltac:(lia)) as Hleft. fold left in Hleft.
  set (k := (len / 8)%nat) in *.
  destruct (loop_spec msg Hm k (length msg) needed s ltac:(lia) ltac:(lia) Hs (len - left)%nat ltac:(lia) ltac:(lia)) as (E & B & Ei).
  destruct (sip_loop (length msg) msg needed (len - left) s) as [s' i] eqn:El. cbn [fst snd] in *. subst i.
  apply Nat.mod_divide in Hd as [q Hq]; [|lia].
  assert (Hfull : full (l ++ msg) = (length l + needed + 8 * k)%nat).
  { unfold full. rewrite app_length.
    replace (length l + length msg)%nat with ((q + k) * 8 + left)%nat by lia.
    rewrite Nat.div_add_l by lia. rewrite Nat.div_small by lia. lia. }
  split; cbn [sip_length sip_st sip_tail sip_ntail].
  - by rewrite app_length.
  - rewrite E, Es, <- foldl_app, <- fmap_app. unfold absorbed. rewrite Hfull. f_equal. f_equal.
    rewrite take_app_ge by lia. replace (length l + needed + 8 * k - length l)%nat with (needed + 8 * k)%nat by lia.
    rewrite <- (take_take_drop msg needed (8 * k)), app_assoc.
    rewrite (pieces_app 8 q) by (rewrite ?app_length, ?take_length; lia).
    f_equal; (apply pieces_fuel; [lia|..]; rewrite ?app_length, ?take_length, ?drop_length; lia).
  - exact B.
  - rewrite le_little, Hfull. rewrite drop_app_ge by lia.
    replace (length l + needed + 8 * k - length l)%nat with (needed + 8 * k)%nat by lia.
    rewrite take_ge; [done|]. rewrite drop_length. lia.
  - rewrite app_length. replace (length l + length msg)%nat with (left + (q + k) * 8)%nat by lia.
    rewrite Nat.mod_add by lia. by rewrite Nat.mod_small.
Qed.

Lemma write_reads s0 l h msg : is_bytes l -> is_bytes msg -> reads s0 l h -> reads s0 (l ++ msg) (sip_write h msg).
Proof.
  intros Hl Hm [R1 R2 R3 R4 R5]. unfold sip_write. rewrite R1, R5.
  pose proof (Nat.div_mod (length l) 8 ltac:(lia)) as Hdm. pose proof (Nat.mod_upper_bound (length l) 8 ltac:(lia)) as Hmod.
  destruct (length l mod 8 =? 0)%nat eqn:E0.
  - apply Nat.eqb_eq in E0. apply (flushed_spec s0 l); try done; [lia|lia|by rewrite Nat.add_0_r|].
    rewrite R2. unfold absorbed. rewrite take_0, app_nil_r, Nat.add_0_r.
    rewrite take_ge by (unfold full; lia). done.
  - apply Nat.eqb_neq in E0. set (n := (length l mod 8)%nat) in *.
    assert (Hdrop : length (drop (full l) l) = n) by (rewrite drop_length; unfold full; lia).
    pose proof (fun m => little_lor (drop (full l) l) m (is_bytes_drop _ _ Hl)) as Hlor. rewrite Hdrop in Hlor.
    rewrite le_little, R4, Hlor. clear Hlor.
    destruct (length msg <? 8 - n)%nat eqn:Ec.
    + apply Nat.ltb_lt in Ec. rewrite Nat.min_l by lia. rewrite take_ge by lia.
      assert (Hfull : full (l ++ msg) = full l).
      { unfold full. rewrite app_length. f_equal. symmetry.
        apply (Nat.div_unique _ 8 _ (n + length msg)); lia. }
      split; cbn [sip_length sip_st sip_tail sip_ntail].
      * by rewrite app_length.
      * rewrite R2. unfold absorbed. rewrite Hfull. rewrite take_app_le by (unfold full; lia). done.
      * done.
      * rewrite Hfull. rewrite drop_app_le by (unfold full; lia). done.
      * rewrite app_length. apply (Nat.mod_unique _ 8 (length l / 8)); lia.
    + apply Nat.ltb_ge in Ec. rewrite Nat.min_r by lia.
      assert (Hw : little (drop (full l) l ++ take (8 - n) msg) < 2 ^ 64).
      { apply word_lt; [apply Forall_app; split; [by apply is_bytes_drop|by apply is_bytes_take]|].
        rewrite app_length, Hdrop, take_length. lia. }
      destruct (absorb_take_in (sip_st h) _ R3 Hw) as [E B]. rewrite <- E in B.
      apply (flushed_spec s0 l); try done; [lia| |lia|].
      { replace (length l + (8 - n))%nat with ((length l / 8 + 1) * 8)%nat by lia. by rewrite Nat.mod_mul. }
      rewrite E, R2. unfold absorbed.
      assert (Ht : length (take (full l) l) = (length l / 8 * 8)%nat) by (rewrite take_length; unfold full; lia).
      replace (length l + (8 - n))%nat with (length (l ++ take (8 - n) msg)) by (rewrite app_length, take_length; lia).
      assert (Ea : l ++ take (8 - n) msg = take (full l) l ++ (drop (full l) l ++ take (8 - n) msg)) by (by rewrite app_assoc, take_drop).
      rewrite Ea. rewrite (pieces_app 8 (length l / 8)) by lia.
      assert (Hlast : length (drop (full l) l ++ take (8 - n) msg) = 8%nat) by (rewrite app_length, Hdrop, take_length; lia).
      rewrite (pieces_cons 8 ltac:(lia) (drop (full l) l ++ take (8 - n) msg)) by lia.
      rewrite (take_ge (drop (full l) l ++ take (8 - n) msg)), (drop_ge (drop (full l) l ++ take (8 - n) msg)) by lia.
      rewrite fmap_app, foldl_app. done.
Qed.

Lemma write_u8_reads s0 l h x : is_bytes l -> x < 256 -> reads s0 l h -> sip_write_u8 h x = sip_write h [x].
Proof.
  intros Hl Hx [R1 R2 R3 R4 R5]. pose proof (Nat.mod_upper_bound (length l) 8 ltac:(lia)) as Hmod.
  unfold sip_write_u8, sip_write. rewrite R5. cbn [length].
  destruct (length l mod 8 =? 0)%nat eqn:E0.
  - apply Nat.eqb_eq in E0. rewrite E0. cbn. assert (Et : sip_tail h = 0).
    { rewrite R4. rewrite drop_ge; [done|]. unfold full. pose proof (Nat.div_mod (length l) 8 ltac:(lia)). lia. }
    rewrite Et. cbn. f_equal. destruct x; cbn; lia.
  - apply Nat.eqb_neq in E0. destruct (1 <? 8 - length l mod 8)%nat eqn:E1.
    + rewrite Nat.min_l by (apply Nat.ltb_lt in E1; lia). cbn [take le_number].
      replace (x + 256 * 0) with x by lia. done.
    + apply Nat.ltb_ge in E1. assert (E : (length l mod 8 = 7)%nat) by lia. rewrite E.
      change (1 - (8 - 7))%nat with 0%nat. change (8 * N.of_nat (8 - 7)) with 8. change (Nat.min 1 (8 - 7)) with 1%nat.
      replace (N.shiftr x 8) with 0 by (rewrite N.shiftr_div_pow2; symmetry; by apply N.div_small).
      unfold sip_flushed. change (1 - (8 - 7))%nat with 0%nat. change (0 mod 8)%nat with 0%nat. cbn [sip_loop Nat.sub Nat.ltb Nat.leb take le_number].
      replace (x + 256 * 0) with x by lia. done.
Qed.

Lemma new_reads (wide : bool) key0 key1 : key0 < 2 ^ 64 -> key1 < 2 ^ 64 ->
  reads (if wide then flip2 (sip_key key0 key1) 238 else sip_key key0 key1) [] (sip_new wide key0 key1).
Proof.
  intros H0 H1. split; try done.
  - by destruct wide.
  - destruct wide; repeat split; repeat apply (lxor_lt 64); done.
Qed.

(** The bytes of a call. *)
Definition call_bytes (c : list N + N) : list N := match c with inl l => l | inr x => [x] end.

Lemma calls_reads (wide : bool) key0 key1 calls : key0 < 2 ^ 64 -> key1 < 2 ^ 64 -> Forall (fun c => is_bytes (call_bytes c)) calls ->
  reads (if wide then flip2 (sip_key key0 key1) 238 else sip_key key0 key1) (concat (call_bytes <$> calls))
    (foldl sip_feed (sip_new wide key0 key1) calls).
Proof.
  intros H0 H1 Hw. induction calls as [|w ws IH] using rev_ind; [by apply new_reads|].
  apply Forall_app in Hw as [Hws Hw]. apply Forall_cons in Hw as [Hw _]. specialize (IH Hws).
  rewrite foldl_app, fmap_app, concat_app. cbn [foldl fmap list_fmap concat]. rewrite app_nil_r.
  assert (Hb : is_bytes (concat (call_bytes <$> ws))).
  { apply Forall_concat, Forall_fmap. eapply Forall_impl; [exact Hws|]. done. }
  destruct w as [l|x]; cbn [sip_feed call_bytes] in *.
  - by apply write_reads.
  - apply Forall_cons in Hw as [Hx _]. rewrite (write_u8_reads _ _ _ _ Hb Hx IH). apply write_reads; [done| |done].
    by apply Forall_singleton.
Qed.

(** ** The last word *)
Lemma words_eq l : sip_words l = absorbed l ++ [little (drop (full l) l ++ replicate (7 - length l mod 8) 0 ++ [N.of_nat (length l) mod 256])].
Proof.
  pose proof (Nat.div_mod (length l) 8 ltac:(lia)) as Hdm. pose proof (Nat.mod_upper_bound (length l) 8 ltac:(lia)) as Hmod.
  unfold sip_words.
  assert (Hp : length (sip_padded l) = ((length l / 8 + 1) * 8)%nat).
  { unfold sip_padded. rewrite !app_length, replicate_length. cbn [length]. lia. }
  transitivity (little <$> ((fun i => take 8 (drop (8 * i) (sip_padded l))) <$> seq 0 (length l / 8 + 1))).
  { by rewrite <- list_fmap_compose. }
  rewrite <- (pieces_seq 8 (length l / 8 + 1)) by (done || lia).
  assert (E : sip_padded l = take (full l) l ++ (drop (full l) l ++ replicate (7 - length l mod 8) 0 ++ [N.of_nat (length l) mod 256])).
  { by rewrite app_assoc, take_drop. }
  rewrite E. assert (Hd : length (drop (full l) l) = (length l mod 8)%nat) by (rewrite drop_length; unfold full; lia).
  rewrite (pieces_app 8 (length l / 8)) by (rewrite ?take_length; unfold full; lia).
  rewrite fmap_app. unfold absorbed. f_equal.
  set (T := drop (full l) l ++ replicate (7 - length l mod 8) 0 ++ [N.of_nat (length l) mod 256]).
  assert (HT : length T = 8%nat) by (unfold T; rewrite !app_length, Hd, replicate_length; cbn [length]; lia).
  rewrite (pieces_cons 8 ltac:(lia) T) by lia. rewrite (take_ge T), (drop_ge T) by lia. done.
Qed.

Lemma last_word l : is_bytes l ->
  N.lor (N.shiftl (N.of_nat (length l) mod 256) 56) (little (drop (full l) l)) =
  little (drop (full l) l ++ replicate (7 - length l mod 8) 0 ++ [N.of_nat (length l) mod 256]) /\
  little (drop (full l) l ++ replicate (7 - length l mod 8) 0 ++ [N.of_nat (length l) mod 256]) < 2 ^ 64.
Proof.
  intros Hb. pose proof (Nat.div_mod (length l) 8 ltac:(lia)) as Hdm. pose proof (Nat.mod_upper_bound (length l) 8 ltac:(lia)) as Hmod.
  assert (Hd : length (drop (full l) l) = (length l mod 8)%nat) by (rewrite drop_length; unfold full; lia).
  split.
  - rewrite N.shiftl_mul_pow2. rewrite (lor_add _ _ 56).
    + rewrite app_assoc, little_app, app_length, Hd, replicate_length, little_app, little_zeros, N.mul_0_r, N.add_0_r.
      replace (length l mod 8 + (7 - length l mod 8))%nat with 7%nat by lia.
      change (256 ^ N.of_nat 7) with (2 ^ 56). cbn [little foldr]. rewrite N.mul_0_r, N.add_0_r.
      generalize (N.of_nat (length l) mod 256), (little (drop (full l) l)), (2 ^ 56). intros. lia.
    + apply N.mod_mul, N.pow_nonzero. lia.
    + pose proof (little_lt _ (is_bytes_drop l (full l) Hb)) as Hlt. rewrite Hd in Hlt. eapply N.lt_le_trans; [exact Hlt|].
      change (2 ^ 56) with (256 ^ 7). apply N.pow_le_mono_r; lia.
  - apply word_lt.
    + apply Forall_app. split; [by apply is_bytes_drop|]. apply Forall_app. split.
      * apply Forall_replicate. lia.
      * constructor; [|done]. by apply N.mod_lt.
    + rewrite !app_length, Hd, replicate_length. cbn [length]. lia.
Qed.

Lemma last_reads s0 l h : is_bytes l -> reads s0 l h ->
  as_tuple (sip_last h) = foldl take_in s0 (sip_words l) /\ words_below (as_tuple (sip_last h)).
Proof.
  intros Hb [R1 R2 R3 R4 R5]. unfold sip_last. rewrite R1, R4. destruct (last_word l Hb) as [-> Hw].
  destruct (absorb_take_in _ _ R3 Hw) as [E B]. rewrite <- E in B. split; [|done].
  rewrite E, R2, words_eq, foldl_app. done.
Qed.

Lemma fold_out s : sip_fold s = out_word (as_tuple s).
Proof. unfold sip_fold, out_word, as_tuple. by rewrite !N.lxor_assoc. Qed.

Lemma out_word_lt s : words_below s -> out_word s < 2 ^ 64.
Proof. destruct s as [[[a b] c] d]. intros (Ha & Hb & Hc & Hd). unfold out_word. repeat apply lxor_lt; done. Qed.

Lemma flip3_below s m : words_below (as_tuple s) -> m < 2 ^ 64 ->
  words_below (as_tuple (SipState (v0 s) (v1 s) (N.lxor (v2 s) m) (v3 s))) /\
  as_tuple (SipState (v0 s) (v1 s) (N.lxor (v2 s) m) (v3 s)) = flip3 (as_tuple s) m.
Proof.
  destruct s as [a b c d]. intros (Ha & Hb & Hc & Hd) Hm. cbn [v0 v1 v2 v3]. split; [|done].
  split; [done|]. split; [done|]. split; [by apply lxor_lt|done].
Qed.
Lemma flip2_below s m : words_below (as_tuple s) -> m < 2 ^ 64 ->
  words_below (as_tuple (SipState (v0 s) (N.lxor (v1 s) m) (v2 s) (v3 s))) /\
  as_tuple (SipState (v0 s) (N.lxor (v1 s) m) (v2 s) (v3 s)) = flip2 (as_tuple s) m.
Proof.
  destruct s as [a b c d]. intros (Ha & Hb & Hc & Hd) Hm. cbn [v0 v1 v2 v3]. split; [|done].
  split; [done|]. split; [by apply lxor_lt|done].
Qed.

Lemma end64 s : words_below (as_tuple s) ->
  sip_fold (d_rounds (SipState (v0 s) (v1 s) (N.lxor (v2 s) 255) (v3 s))) = out_word (Nat.iter 4 mix (flip3 (as_tuple s) 255)) /\
  out_word (Nat.iter 4 mix (flip3 (as_tuple s) 255)) < 2 ^ 64.
Proof.
  intros B. destruct (flip3_below s 255 B ltac:(done)) as [B1 E1].
  rewrite fold_out, (d_rounds_mix _ B1), E1. split; [reflexivity|]. rewrite E1 in B1. exact (out_word_lt _ (iter_mix 4 _ B1)).
Qed.

Lemma end128 s : words_below (as_tuple s) ->
  let s1 := d_rounds (SipState (v0 s) (v1 s) (N.lxor (v2 s) 238) (v3 s)) in
  let t := Nat.iter 4 mix (flip3 (as_tuple s) 238) in
  N.lor (sip_fold s1) (N.shiftl (sip_fold (d_rounds (SipState (v0 s1) (N.lxor (v1 s1) 221) (v2 s1) (v3 s1)))) 64) =
    out_word t + 2 ^ 64 * out_word (Nat.iter 4 mix (flip2 t 221)) /\
  out_word t + 2 ^ 64 * out_word (Nat.iter 4 mix (flip2 t 221)) < 2 ^ 128.
Proof.
  intros B. cbv zeta. destruct (flip3_below s 238 B ltac:(done)) as [B1 E1].
  pose proof (d_rounds_mix _ B1) as E2. pose proof (iter_mix 4 _ B1) as B2. rewrite <- E2 in B2. rewrite E1 in E2.
  rewrite <- E2. set (s2 := d_rounds _) in *. clearbody s2. clear E2.
  destruct (flip2_below s2 221 B2 ltac:(done)) as [B3 E3].
  rewrite !fold_out, (d_rounds_mix _ B3), E3. rewrite E3 in B3.
  pose proof (out_word_lt _ B2) as H1. pose proof (out_word_lt _ (iter_mix 4 _ B3)) as H2.
  set (x := out_word (as_tuple s2)) in *. set (y := out_word (Nat.iter 4 mix (flip2 (as_tuple s2) 221))) in *. clearbody x y.
  clear - H1 H2. split.
  - rewrite N.shiftl_mul_pow2, N.lor_comm, (lor_add _ _ 64); [lia| |done]. apply N.mod_mul, N.pow_nonzero. lia.
  - change (2 ^ 128) with (2 ^ 64 * 2 ^ 64). generalize dependent (2 ^ 64). intros. nia.
Qed.

Lemma finish_spec s0 l h : is_bytes l -> reads s0 l h ->
  sip_finish h = out_word (Nat.iter 4 mix (flip3 (foldl take_in s0 (sip_words l)) 255)) /\ sip_finish h < 2 ^ 64.
Proof.
  intros Hb R. destruct (last_reads s0 l h Hb R) as [E B]. unfold sip_finish. rewrite <- E.
  destruct (end64 _ B) as [E1 L]. cbv zeta. rewrite E1. split; [reflexivity|exact L].
Qed.

Lemma finish128_spec s0 l h : is_bytes l -> reads s0 l h ->
  sip_finish128 h = (let s := Nat.iter 4 mix (flip3 (foldl take_in s0 (sip_words l)) 238) in
    out_word s + 2 ^ 64 * out_word (Nat.iter 4 mix (flip2 s 221))) /\ sip_finish128 h < 2 ^ 128.
Proof.
  intros Hb R. destruct (last_reads s0 l h Hb R) as [E B]. unfold sip_finish128. rewrite <- E.
  destruct (end128 _ B) as [E1 L]. cbv zeta in E1, L |- *. rewrite E1. split; [reflexivity|exact L].
Qed.

Lemma calls_bytes calls : Forall (fun c => is_bytes (call_bytes c)) calls -> is_bytes (concat (call_bytes <$> calls)).
Proof. intros H. apply Forall_concat, Forall_fmap. eapply Forall_impl; [exact H|]. done. Qed.

Lemma calls64 key0 key1 calls : key0 < 2 ^ 64 -> key1 < 2 ^ 64 -> Forall (fun c => is_bytes (call_bytes c)) calls ->
  sip_finish (foldl sip_feed (sip_new false key0 key1) calls) = siphash_2_4 key0 key1 (concat (call_bytes <$> calls)) /\
  siphash_2_4 key0 key1 (concat (call_bytes <$> calls)) < 2 ^ 64.
Proof.
  intros H0 H1 Hc. pose proof (calls_reads false key0 key1 calls H0 H1 Hc) as R.
  destruct (finish_spec _ _ _ (calls_bytes _ Hc) R) as [E L]. rewrite E in L |- *. split; [reflexivity|exact L].
Qed.

Lemma calls128 key0 key1 calls : key0 < 2 ^ 64 -> key1 < 2 ^ 64 -> Forall (fun c => is_bytes (call_bytes c)) calls ->
  sip_finish128 (foldl sip_feed (sip_new true key0 key1) calls) = siphash_2_4_128 key0 key1 (concat (call_bytes <$> calls)) /\
  siphash_2_4_128 key0 key1 (concat (call_bytes <$> calls)) < 2 ^ 128.
Proof.
  intros H0 H1 Hc. pose proof (calls_reads true key0 key1 calls H0 H1 Hc) as R.
  destruct (finish128_spec _ _ _ (calls_bytes _ Hc) R) as [E L]. rewrite E in L |- *. split; [reflexivity|exact L].
Qed.

Lemma sip64_value key0 key1 msg : key0 < 2 ^ 64 -> key1 < 2 ^ 64 -> is_bytes msg ->
  sip64 key0 key1 msg = siphash_2_4 key0 key1 msg /\ siphash_2_4 key0 key1 msg < 2 ^ 64.
Proof.
  intros H0 H1 Hm. pose proof (calls64 key0 key1 [inl msg] H0 H1 ltac:(by apply Forall_singleton)) as H.
  cbn [foldl sip_feed fmap list_fmap call_bytes concat] in H. rewrite app_nil_r in H. exact H.
Qed.

Lemma sip128_value key0 key1 msg : key0 < 2 ^ 64 -> key1 < 2 ^ 64 -> is_bytes msg ->
  sip128 key0 key1 msg = siphash_2_4_128 key0 key1 msg /\ siphash_2_4_128 key0 key1 msg < 2 ^ 128.
Proof.
  intros H0 H1 Hm. pose proof (calls128 key0 key1 [inl msg] H0 H1 ltac:(by apply Forall_singleton)) as H.
  cbn [foldl sip_feed fmap list_fmap call_bytes concat] in H. rewrite app_nil_r in H. exact H.
Qed.
