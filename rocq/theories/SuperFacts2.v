(** Proofs about SuperMinHash.v: the cells of version 2. *)
From stdpp Require Import base list.
From Coq Require Import NArith ZArith Lia.
From Verif Require Import ListFacts Base Float SuperMinHash SpecSuper SuperFloat SuperFacts.
Local Open Scope nat_scope.

(** ** Shuffling *)
Lemma swapped_perm l j k : swapped l j k ≡ₚ l.
Proof.
  unfold swapped. destruct (l !! j) as [x|] eqn:Ej; [|done]. destruct (l !! k) as [y|] eqn:Ek; [|done].
  destruct (decide (j = k)) as [->|Hne].
  - rewrite Ej in Ek. injection Ek as ->. rewrite !list_insert_id; rewrite ?list_insert_id; done.
  - apply Permutation_inj. split; [by rewrite !insert_length|].
    exists (fun n => if decide (n = j) then k else if decide (n = k) then j else n). split.
    + intros a b. repeat case_decide; congruence.
    + intros n. apply lookup_lt_Some in Ej as Lj. apply lookup_lt_Some in Ek as Lk.
      destruct (decide (n = j)) as [->|Hj].
      * rewrite list_lookup_insert_ne by done. rewrite list_lookup_insert by done. by rewrite Ek.
      * destruct (decide (n = k)) as [->|Hk].
        -- rewrite list_lookup_insert; [by rewrite Ej|]. by rewrite insert_length.
        -- by rewrite !list_lookup_insert_ne.
Qed.

Section Shuffle.
Context (ks : nat -> nat) (m : nat) (Hk : forall j, j < m -> j <= ks j < m).

Lemma shuffled_S n : shuffled ks m (S n) = swapped (shuffled ks m n) n (ks n).
Proof. unfold shuffled. rewrite seq_S, foldl_app. done. Qed.

Lemma shuffled_perm n : shuffled ks m n ≡ₚ seq 0 m.
Proof. induction n as [|n IH]; [done|]. rewrite shuffled_S, swapped_perm. done. Qed.

Lemma shuffled_length n : length (shuffled ks m n) = m.
Proof. by rewrite (Permutation_length (shuffled_perm n)), seq_length. Qed.

Lemma shuffled_fixed n j : j < n -> n <= m -> shuffled ks m n !! j = slot ks m j.
Proof.
  induction n as [|n IH]; intros Hj Hn; [lia|]. destruct (decide (j = n)) as [->|Hne]; [done|].
  rewrite shuffled_S. unfold swapped. pose proof (Hk n ltac:(lia)).
  destruct (shuffled ks m n !! n), (shuffled ks m n !! ks n); try (apply IH; lia).
  rewrite !list_lookup_insert_ne by lia. apply IH; lia.
Qed.

Lemma slot_lt j c : slot ks m j = Some c -> c < m.
Proof.
  unfold slot. intros H. apply elem_of_list_lookup_2 in H. rewrite shuffled_perm in H.
  apply elem_of_seq in H. lia.
Qed.

Lemma slot_surj c : c < m -> exists j, j < m /\ slot ks m j = Some c.
Proof.
  intros Hc. assert (Hin : c ∈ shuffled ks m m) by (rewrite shuffled_perm; apply elem_of_seq; lia).
  apply elem_of_list_lookup in Hin as [j Hj]. apply lookup_lt_Some in Hj as Hl. rewrite shuffled_length in Hl.
  exists j. split; [done|]. rewrite <- (shuffled_fixed m j); [done|lia|lia].
Qed.
End Shuffle.

Section Cells.
Context (unit2 : N -> nat -> nat -> f32) (pick : N -> nat -> nat -> nat) (m : nat).
Context (Hk : forall seed j, j < m -> j <= pick seed m j < m).
Context (Hu : forall seed j, is_unit (unit2 seed m j)).
Context (Hm : (N.of_nat m <= 2 ^ 24)%N).
Notation value := (value unit2 m).
Notation round := (v2_round unit2 pick m).
Notation inv := (v2_inv m).
Notation slot t := (slot (pick t m) m).

Lemma value_nonneg t j : j < m -> nonneg (value t j).
Proof. intros Hj. apply unit_add_nonneg; [apply Hu|lia]. Qed.

Lemma value_u32 t j : j < m -> (f32_as_u32 (value t j) = N.of_nat j \/ f32_as_u32 (value t j) = N.of_nat j + 1)%N.
Proof. intros Hj. apply unit_add_u32; [apply Hu|lia]. Qed.

Lemma value_usize t j : j < m -> f32_as_usize (value t j) = f32_as_u32 (value t j).
Proof. intros Hj. apply add_usize; [apply Hu|lia]. Qed.

Lemma value_not_initial t j : j < m -> value t j ≠ initial.
Proof.
  intros Hj E. pose proof (value_u32 t j Hj) as H. rewrite E, initial_u32 in H. lia.
Qed.

(** ** Every round replaces at most one cell by a smaller value *)
Definition all_nonneg (s : v2_state) : Prop := forall c x, v2_h s !! c = Some x -> nonneg x.
Definition below (s' s : v2_state) : Prop :=
  forall c x, v2_h s !! c = Some x -> exists x', v2_h s' !! c = Some x' /\ (f32_as_u32 x' <= f32_as_u32 x)%N.

Lemma round_below i t j s s' : inv s -> j <= v2_a s -> all_nonneg s -> round i t j s = Some s' ->
  all_nonneg s' /\ below s' s.
Proof.
  intros Hi Hj Hn E. pose proof (vi_a m s Hi).
  destruct (round_eq unit2 pick m Hk i t j s Hi Hj) as (c & hc & s1 & _ & Hc & Hhc & E1 & _ & _ & _ & _ & Hh & _).
  rewrite E in E1. injection E1 as <-.
  pose proof (lt_u32 (value t j) hc (value_nonneg t j ltac:(lia)) (Hn c hc Hhc)) as Hlt.
  destruct (f32_lt (value t j) hc).
  - split.
    + intros d x. rewrite Hh. intros [(<- & <- & _)|[_ H']]%list_lookup_insert_Some; [apply value_nonneg; lia|by apply (Hn d)].
    + intros d x Hx. rewrite Hh. destruct (decide (d = c)) as [->|Hne].
      * rewrite Hhc in Hx. injection Hx as <-. rewrite list_lookup_insert by (rewrite (vi_h m s Hi); lia). eauto.
      * rewrite list_lookup_insert_ne by done. exists x. split; [done|lia].
  - split.
    + intros d x. rewrite Hh. apply Hn.
    + intros d x Hx. rewrite Hh. exists x. split; [done|lia].
Qed.

Lemma below_refl s : below s s.
Proof. intros c x Hx. exists x. split; [done|lia]. Qed.
Lemma below_trans s1 s2 s3 : below s1 s2 -> below s2 s3 -> below s1 s3.
Proof.
  intros H12 H23 c x Hx. destruct (H23 c x Hx) as (y & Hy & Hle). destruct (H12 c y Hy) as (z & Hz & Hle').
  exists z. split; [done|lia].
Qed.

Lemma while_below i t j s : inv s -> all_nonneg s -> exists s', v2_while unit2 pick m m i t j s = Some s' /\
  inv s' /\ all_nonneg s' /\ below s' s.
Proof.
  intros Hi Hn.
  destruct (while_rule unit2 pick m Hk (fun _ s' => all_nonneg s' /\ below s' s) i t) with (fuel := m) (j := j) (s := s)
    as (j' & s' & E & Hi' & [Hn' Hb] & _); [|done|by split; [|apply below_refl]|lia|].
  - intros j0 s0 s1 Hi0 [Hn0 Hb0] Hj0 E0. destruct (round_below i t j0 s0 s1 Hi0 Hj0 Hn0 E0) as [H1 H2].
    split; [done|]. by eapply below_trans.
  - by exists s'.
Qed.

Lemma tokens_below ts i s : inv s -> all_nonneg s -> exists s', v2_tokens unit2 pick m i ts s = Some s' /\
  inv s' /\ all_nonneg s' /\ below s' s.
Proof.
  revert i s. induction ts as [|t ts IH]; intros i s Hi Hn.
  - exists s. split_and!; try done. apply below_refl.
  - cbn [v2_tokens]. destruct (while_below i t 0 s Hi Hn) as (s1 & -> & Hi1 & Hn1 & Hb1). cbn [mbind option_bind].
    destruct (IH (S i) s1 Hi1 Hn1) as (s2 & -> & Hi2 & Hn2 & Hb2). exists s2. split_and!; try done.
    by eapply below_trans.
Qed.

Lemma tokens_app ts1 ts2 i s :
  v2_tokens unit2 pick m i (ts1 ++ ts2) s =
  (s' ← v2_tokens unit2 pick m i ts1 s; v2_tokens unit2 pick m (i + length ts1) ts2 s').
Proof.
  revert i s. induction ts1 as [|t ts1 IH]; intros i s; cbn [app v2_tokens length].
  - rewrite Nat.add_0_r. done.
  - destruct (v2_while _ _ _ _ _ _ _ _) as [s1|]; [|done]. cbn [mbind option_bind]. rewrite IH.
    by rewrite Nat.add_succ_r.
Qed.

(** ** The arrays q and p of a token after the first hold its random permutation *)
Definition lazy_p (i : nat) (q p l : list nat) : Prop :=
  length q = m /\ length p = m /\ length l = m /\
  forall x, x < m -> (q !! x = Some i -> p !! x = l !! x) /\ (q !! x ≠ Some i -> l !! x = Some x).

Lemma touched_lazy i x q p l : x < m -> lazy_p i q p l ->
  let qp := touched i x (q, p) in lazy_p i qp.1 qp.2 l /\ qp.1 !! x = Some i /\
  forall y, q !! y = Some i -> qp.1 !! y = Some i.
Proof.
  intros Hx (Lq & Lp & Ll & H). cbn zeta. unfold touched. cbn [fst snd]. case_decide as Hd; cbn [fst snd].
  - split_and!; try done.
  - split; [|split].
    + split_and!; [by rewrite insert_length|by rewrite insert_length|done|].
      intros y Hy. destruct (decide (y = x)) as [->|Hne].
      * rewrite !list_lookup_insert by lia. split; [|done]. intros _. symmetry. by apply H.
      * rewrite !list_lookup_insert_ne by done. by apply H.
    + by apply list_lookup_insert; lia.
    + intros y Hy. destruct (decide (y = x)) as [->|Hne]; [by apply list_lookup_insert; lia|].
      by rewrite list_lookup_insert_ne.
Qed.

Lemma swapped_other l j k x : x ≠ j -> x ≠ k -> swapped l j k !! x = l !! x.
Proof.
  intros Hj Hk'. unfold swapped. destruct (l !! j), (l !! k); try done. by rewrite !list_lookup_insert_ne.
Qed.

Lemma swap_lazy i t j s : inv s -> j < m -> lazy_p i (v2_q s) (v2_p s) (shuffled (pick t m) m j) ->
  lazy_p i (swap_qp pick m i t j s).1 (swap_qp pick m i t j s).2 (shuffled (pick t m) m (S j)) /\
  (swap_qp pick m i t j s).2 !! j = slot t j.
Proof.
  intros Hi Hj Hl. pose proof (Hk t j Hj) as Hp. unfold swap_qp. cbn [fst snd].
  destruct (touched_lazy i j _ _ _ Hj Hl) as (H1 & H1j & _).
  destruct (touched_lazy i (pick t m j) (touched i j (v2_q s, v2_p s)).1 (touched i j (v2_q s, v2_p s)).2 _ ltac:(lia) H1)
    as (H2 & H2k & H2i).
  rewrite <- surjective_pairing in *.
  set (qp := touched i (pick t m j) (touched i j (v2_q s, v2_p s))) in *.
  specialize (H2i j H1j). destruct H2 as (Lq & Lp & Ll & H2).
  set (l := shuffled (pick t m) m j) in *. rewrite shuffled_S. fold l.
  assert (Epj : qp.2 !! j = l !! j) by (by apply H2).
  assert (Epk : qp.2 !! pick t m j = l !! pick t m j) by (apply H2; [lia|done]).
  assert (Heq : forall x, x = j \/ x = pick t m j -> swapped qp.2 j (pick t m j) !! x = swapped l j (pick t m j) !! x).
  { intros x Hx. unfold swapped. rewrite Epj, Epk.
    destruct (lookup_lt_is_Some_2 l j) as [a Ea]; [lia|]. destruct (lookup_lt_is_Some_2 l (pick t m j)) as [b Eb]; [lia|].
    rewrite Ea, Eb. destruct (decide (x = pick t m j)) as [->|Hne].
    - rewrite !list_lookup_insert; rewrite ?insert_length; try lia. done.
    - destruct Hx as [->|Hx]; [|done]. rewrite !(list_lookup_insert_ne _ (pick t m j)) by done.
      rewrite !list_lookup_insert by lia. done. }
  split.
  - split_and!; rewrite ?swapped_length; try done. intros x Hx.
    destruct (decide (x = j \/ x = pick t m j)) as [Hor|Hno].
    + split; [intros _; by apply Heq|]. destruct Hor as [-> | ->]; done.
    + assert (x ≠ j /\ x ≠ pick t m j) as [Hxj Hxk] by (split; intros ->; apply Hno; tauto).
      rewrite !swapped_other by done. by apply H2.
  - unfold SpecSuper.slot. rewrite shuffled_S. fold l. apply Heq. by left.
Qed.

Lemma swap_q_le i t j s (B : nat) : (forall x y, v2_q s !! x = Some y -> y <= B) -> i <= B ->
  forall x y, (swap_qp pick m i t j s).1 !! x = Some y -> y <= B.
Proof.
  intros Hq HB. unfold swap_qp. cbn [fst snd].
  assert (Ht : forall z qp, (forall x y, qp.1 !! x = Some y -> y <= B) ->
    forall x y, (touched i z qp).1 !! x = Some y -> y <= B).
  { intros z qp H x y. unfold touched. case_decide; [apply H|]. cbn.
    intros [(<- & <- & _)|[_ H']]%list_lookup_insert_Some; [done|by eapply H]. }
  apply Ht, Ht. exact Hq.
Qed.

(** Before token [i]: no cell of q holds [i]. *)
Definition before (i : nat) (s : v2_state) : Prop := forall x y, v2_q s !! x = Some y -> y < i.

Lemma before_lazy i t s : inv s -> before i s -> lazy_p i (v2_q s) (v2_p s) (shuffled (pick t m) m 0).
Proof.
  intros Hi Hb. split_and!; [apply Hi|apply Hi|apply seq_length|]. intros x Hx. split.
  - intros Hq. apply Hb in Hq. lia.
  - intros _. unfold shuffled. cbn. by apply lookup_seq_lt.
Qed.

(** Where a value comes from. *)
Definition origin (ts : list N) (c : nat) (x : f32) : Prop :=
  x = initial \/ (c = 0 /\ exists t, ts !! 0 = Some t /\ x = value t 0) \/
  exists i t j, 1 <= i /\ ts !! i = Some t /\ j < m /\ slot t j = Some c /\ x = value t j.
Definition origins (ts : list N) (s : v2_state) : Prop := forall c x, v2_h s !! c = Some x -> origin ts c x.

Lemma while_later ts i t s : 1 <= i -> ts !! i = Some t -> inv s -> before i s -> origins ts s ->
  exists s', v2_while unit2 pick m m i t 0 s = Some s' /\ inv s' /\ before (S i) s' /\ origins ts s'.
Proof.
  intros Hi1 Hti Hi Hb Ho.
  destruct (while_rule unit2 pick m Hk (fun j s' => lazy_p i (v2_q s') (v2_p s') (shuffled (pick t m) m j) /\
      before (S i) s' /\ origins ts s') i t) with (fuel := m) (j := 0) (s := s)
    as (j' & s' & E & Hi' & (_ & Hb' & Ho') & _); [|done| |lia|].
  - intros j s0 s1 Hi0 (Hl0 & Hb0 & Ho0) Hj0 E0. pose proof (vi_a m s0 Hi0).
    destruct (round_eq unit2 pick m Hk i t j s0 Hi0 Hj0) as (c & hc & s2 & Hc & Hcm & Hhc & E1 & _ & Hq & Hp & _ & Hh & _).
    rewrite E0 in E1. injection E1 as <-.
    destruct (swap_lazy i t j s0 Hi0 ltac:(lia) Hl0) as [Hl1 Hs]. rewrite Hc in Hs.
    split_and!.
    + by rewrite Hq, Hp.
    + intros x y. rewrite Hq. intros Hy.
      enough (y <= i) by lia. eapply (swap_q_le i t j s0 i); [|done|exact Hy].
      intros x' y' H'. apply Hb0 in H'. lia.
    + intros d x. rewrite Hh. destruct (f32_lt _ hc); [|apply Ho0].
      intros [(<- & <- & _)|[_ H']]%list_lookup_insert_Some; [|by apply Ho0].
      right. right. exists i, t, j. split_and!; try done. lia.
  - split_and!; [by apply before_lazy| |done]. intros x y Hy. apply Hb in Hy. lia.
  - by exists s'.
Qed.

(** ** The first token *)
Definition first_state (t : N) (s : v2_state) : Prop :=
  v2_h s = <[0 := value t 0]> (replicate m initial) /\ v2_a s = m - 1 /\
  (2 <= m -> v2_b s !! (m - 1) = Some (Z.of_nat (m - 1))).

Lemma first_swap t j s : inv s -> j < m -> v2_q s = replicate m 0 -> v2_p s = replicate m 0 ->
  swap_qp pick m 0 t j s = (replicate m 0, replicate m 0).
Proof.
  intros Hi Hj Hq Hp. pose proof (Hk t j Hj). unfold swap_qp. rewrite Hq, Hp.
  assert (Ht : forall x, x < m -> touched 0 x (replicate m 0, replicate m 0) = (replicate m 0, replicate m 0)).
  { intros x Hx. unfold touched. cbn [fst]. rewrite decide_True; [done|]. by apply lookup_replicate_2. }
  rewrite Ht by lia. rewrite Ht by lia. cbn [fst snd]. f_equal. unfold swapped.
  rewrite !lookup_replicate_2 by lia. rewrite (list_insert_id (replicate m 0) j) by (by apply lookup_replicate_2).
  by rewrite list_insert_id by (apply lookup_replicate_2; lia).
Qed.

Lemma first_token t s : 0 < m -> v2_start m = Some s ->
  exists s', v2_while unit2 pick m m 0 t 0 s = Some s' /\ inv s' /\ before 1 s' /\ first_state t s'.
Proof.
  intros Hm0 Es. destruct (start_ok pick m Hk Hm0) as (s0 & E0 & Hi & Hs0). rewrite Es in E0. injection E0 as <-.
  destruct (while_rule unit2 pick m Hk (fun j s' => v2_q s' = replicate m 0 /\ v2_p s' = replicate m 0 /\
      if decide (j = 0) then s' = s else first_state t s') 0 t) with (fuel := m) (j := 0) (s := s)
    as (j' & s' & E & Hi' & (Hq & Hp & Hf) & Ha & _); [|done| |lia|].
  - intros j s1 s2 Hi1 (Hq & Hp & Hf) Hj1 E1. pose proof (vi_a m s1 Hi1).
    destruct (round_eq unit2 pick m Hk 0 t j s1 Hi1 Hj1)
      as (c & hc & s3 & Hc & Hcm & Hhc & E2 & _ & Hq' & Hp' & _ & Hh & j2 & Ej2 & Hb).
    rewrite E1 in E2. injection E2 as <-.
    rewrite first_swap in Hc, Hq', Hp' by (done || lia). cbn [fst snd] in Hc, Hq', Hp'.
    apply lookup_replicate in Hc as [-> _].
    split; [done|]. split; [done|]. rewrite decide_False by done.
    destruct (decide (j = 0)) as [->|Hj0].
    + subst s1. rewrite Hs0 in Hhc, Hh, Hb, Hj1. cbn [v2_h v2_a v2_b] in *.
      apply lookup_replicate in Hhc as [-> _].
      rewrite initial_usize in Ej2.
      assert (El : f32_lt (value t 0) initial = true) by (apply add_lt_initial; [apply Hu|lia]).
      rewrite El in Hh, Hb. cbn [andb] in Hb.
      assert (j2 = m - 1) as -> by lia. clear Ej2.
      destruct (Nat.ltb_spec 0 (m - 1)) as [Hlt|Hge].
      * destruct Hb as [(bj2 & bj & E2 & E1' & Eb) Ha].
        rewrite lookup_app_r in E2 by (rewrite replicate_length; done).
        rewrite replicate_length, Nat.sub_diag in E2. cbn in E2. injection E2 as <-.
        assert (Eb' : v2_b s2 !! (m - 1) = Some (Z.of_nat m - 1)%Z).
        { rewrite Eb. rewrite list_lookup_insert_ne by lia. apply list_lookup_insert.
          rewrite app_length, replicate_length. cbn. lia. }
        split; [done|]. split.
        -- destruct Ha as [Ha|Ha]; [|done]. rewrite Eb' in Ha. injection Ha. lia.
        -- intros _. rewrite Eb'. f_equal. lia.
      * destruct Hb as [_ Ha]. split; [done|]. split; [done|]. lia.
    + destruct Hf as (Hf1 & Hf2 & Hf3). rewrite Hf1 in Hhc, Hh.
      rewrite list_lookup_insert in Hhc by (rewrite replicate_length; lia). injection Hhc as <-.
      assert (El : f32_lt (value t j) (value t 0) = false) by (apply later_not_lt; [apply Hu|apply Hu|lia]).
      rewrite El in Hh, Hb. cbn [andb] in Hb. destruct Hb as [Hb Ha]. split; [done|]. split; [lia|].
      by rewrite Hb.
  - rewrite decide_True by done. rewrite Hs0. done.
  - exists s'. split; [done|]. split; [done|]. split.
    + intros x y. rewrite Hq. intros Hy. apply lookup_replicate in Hy as [-> _]. lia.
    + destruct (decide (j' = 0)) as [->|]; [lia|done].
Qed.

(** ** The second token *)
Definition ind (x : f32) : Z := if (f32_as_u32 x =? 100000000)%N then 1%Z else 0%Z.
Definition cnt (h : list f32) : Z := zsum (ind <$> h).

Lemma ind_initial : ind initial = 1%Z.
Proof. unfold ind. by rewrite initial_u32. Qed.
Lemma ind_value t j : j < m -> ind (value t j) = 0%Z.
Proof. intros Hj. pose proof (value_u32 t j Hj). unfold ind. destruct (N.eqb_spec (f32_as_u32 (value t j)) 100000000); [lia|done]. Qed.

Lemma cnt_insert h c x y : h !! c = Some x -> cnt (<[c := y]> h) = (cnt h - ind x + ind y)%Z.
Proof.
  intros H. unfold cnt. rewrite list_fmap_insert. apply zsum_insert. by rewrite list_lookup_fmap, H.
Qed.

Lemma cnt_zero h c x : cnt h = 0%Z -> h !! c = Some x -> ind x = 0%Z.
Proof.
  unfold cnt. assert (Hnn : forall h, (0 <= zsum (ind <$> h))%Z).
  { clear. induction h as [|y h IH]; [done|]. cbn [fmap list_fmap].
    change (zsum (ind y :: (ind <$> h))) with (ind y + zsum (ind <$> h))%Z. unfold ind at 1. destruct (_ =? _)%N; lia. }
  revert c. induction h as [|y h IH]; intros [|c] Hz Hx; [done..| |];
    cbn [fmap list_fmap] in Hz; change (zsum (ind y :: (ind <$> h))) with (ind y + zsum (ind <$> h))%Z in Hz;
    pose proof (Hnn h); assert (0 <= ind y)%Z by (unfold ind; destruct (_ =? _)%N; lia).
  - cbn in Hx. injection Hx as <-. lia.
  - cbn in Hx. eapply IH; [lia|done].
Qed.

Lemma cnt_replicate n : cnt (replicate n initial) = Z.of_nat n.
Proof.
  unfold cnt. rewrite fmap_replicate, ind_initial. induction n as [|n IH]; [done|]. cbn [replicate].
  change (zsum (1%Z :: replicate n 1%Z)) with (1 + zsum (replicate n 1%Z))%Z. rewrite IH. lia.
Qed.

Lemma slot_inj t j1 j2 c : j1 < m -> j2 < m -> slot t j1 = Some c -> slot t j2 = Some c -> j1 = j2.
Proof.
  intros H1 H2 E1 E2. rewrite <- (shuffled_fixed (pick t m) m (Hk t) m) in E1, E2 by lia.
  eapply NoDup_lookup; [|exact E1|exact E2]. rewrite shuffled_perm. apply NoDup_ListNoDup, seq_NoDup.
Qed.

Definition ranked (t : N) (s : v2_state) : Prop :=
  (exists x, v2_h s !! 0 = Some x /\ f32_as_u32 x = 0%N) /\
  forall c, 0 < c < m -> exists j, j < m /\ slot t j = Some c /\ v2_h s !! c = Some (value t j).

Record second (t : N) (j : nat) (s : v2_state) : Prop := {
  se_lazy : lazy_p 1 (v2_q s) (v2_p s) (shuffled (pick t m) m j);
  se_zero : exists u k, k < m /\ v2_h s !! 0 = Some (value u k) /\ f32_as_u32 (value u k) = 0%N;
  se_seen : forall k c, k < j -> k < m -> 0 < c -> slot t k = Some c -> v2_h s !! c = Some (value t k);
  se_fresh : forall c, 0 < c < m -> (forall k, k < j -> k < m -> slot t k ≠ Some c) -> v2_h s !! c = Some initial;
  se_cnt : j < m -> v2_b s !! (m - 1) = Some (cnt (v2_h s));
  se_a : v2_a s = m - 1 \/ cnt (v2_h s) = 0%Z;
}.

Lemma value_zero t : 0 < m -> f32_as_u32 (value t 0) = 0%N.
Proof. intros H. apply (unit_add_u32 (unit2 t m 0) 0); [apply Hu|lia|done]. Qed.

Lemma second_step t j s s' : 2 <= m -> inv s -> second t j s -> j <= v2_a s -> round 1 t j s = Some s' ->
  second t (S j) s'.
Proof.
  intros Hm2 Hi Hs Hj E. pose proof (vi_a m s Hi) as Ham. destruct Hs as [Hl Hz Hseen Hfresh Hcnt Ha].
  destruct (round_eq unit2 pick m Hk 1 t j s Hi Hj) as (c & hc & s1 & Hc & Hcm & Hhc & E1 & Hi' & Hq & Hp & Hale & Hh & j2 & Ej2 & Hb).
  rewrite E in E1. injection E1 as <-.
  destruct (swap_lazy 1 t j s Hi ltac:(lia) Hl) as [Hl1 Hslot]. rewrite Hc in Hslot. symmetry in Hslot.
  assert (Hjm : j < m) by lia. pose proof (vi_h m s Hi) as Lh.
  assert (Lc : c < length (v2_h s)) by lia.
  destruct (decide (c = 0)) as [->|Hc0].
  - (* the cell of the first token *)
    destruct Hz as (u & k & Hkm & Hhz & Hz0). rewrite Hhc in Hhz. injection Hhz as ->.
    rewrite value_usize, Hz0 in Ej2 by done. assert (j2 = 0) as -> by lia. clear Ej2.
    assert (Ef : (j <? 0) = false) by (apply Nat.ltb_ge; lia). rewrite Ef, andb_false_r in Hb. destruct Hb as [Hb Hae].
    assert (Hc' : cnt (v2_h s') = cnt (v2_h s)).
    { rewrite Hh. destruct (f32_lt _ _); [|done]. rewrite (cnt_insert _ 0 (value u k)) by done.
      rewrite !ind_value by done. lia. }
    assert (Ho : forall d, 0 < d -> v2_h s' !! d = v2_h s !! d).
    { intros d Hd. rewrite Hh. destruct (f32_lt _ _); [|done]. by rewrite list_lookup_insert_ne by lia. }
    split.
    + by rewrite Hq, Hp.
    + pose proof (lt_u32 (value t j) (value u k) (value_nonneg t j Hjm) (value_nonneg u k Hkm)) as Hlt.
      rewrite Hh. destruct (f32_lt _ _).
      * exists t, j. split_and!; [done| |lia]. by apply list_lookup_insert.
      * by exists u, k.
    + intros k' d Hk' Hkm' Hd Es. rewrite Ho by done. destruct (decide (k' = j)) as [->|Hne].
      * rewrite Hslot in Es. injection Es as <-. lia.
      * apply Hseen; try done. lia.
    + intros d Hd Hno. rewrite Ho by lia. apply Hfresh; [done|]. intros k' Hk'. apply Hno. lia.
    + intros Hlt. rewrite Hb, Hc'. apply Hcnt. lia.
    + rewrite Hae, Hc'. done.
  - (* a cell not seen before *)
    assert (Hini : hc = initial).
    { assert (H : v2_h s !! c = Some initial).
      { apply Hfresh; [lia|]. intros k Hkj Hkm Es. pose proof (slot_inj t k j c Hkm Hjm Es Hslot). lia. }
      rewrite Hhc in H. by injection H. }
    subst hc.
    assert (El : f32_lt (value t j) initial = true) by (apply add_lt_initial; [apply Hu|lia]).
    rewrite El in Hh, Hb. rewrite initial_usize in Ej2. cbn [andb] in Hb.
    assert (j2 = m - 1) as -> by lia. clear Ej2.
    assert (Hc' : cnt (v2_h s') = (cnt (v2_h s) - 1)%Z).
    { rewrite Hh, (cnt_insert _ c initial) by done. rewrite ind_initial, ind_value by done. lia. }
    assert (Ho : forall d, d ≠ c -> v2_h s' !! d = v2_h s !! d).
    { intros d Hd. rewrite Hh. by rewrite list_lookup_insert_ne by done. }
    split.
    + by rewrite Hq, Hp.
    + rewrite Ho by done. done.
    + intros k d Hkj Hkm Hd Es. destruct (decide (k = j)) as [->|Hne].
      * rewrite Hslot in Es. injection Es as <-. rewrite Hh. by apply list_lookup_insert.
      * rewrite Ho; [apply Hseen; try done; lia|]. intros ->. apply Hne.
        by apply (slot_inj t k j c).
    + intros d Hd Hno. rewrite Ho; [apply Hfresh; [done|intros k' Hk'; apply Hno; lia]|].
      intros ->. apply (Hno j); [lia|done|done].
    + intros Hlt. rewrite (proj2 (Nat.ltb_lt _ _)) in Hb by lia.
      destruct Hb as [(bj2 & bj & E2 & E1 & Eb) _]. rewrite Hcnt in E2 by lia. injection E2 as <-.
      rewrite Eb, list_lookup_insert_ne by lia. rewrite list_lookup_insert; [by rewrite Hc'|].
      rewrite (vi_b m s Hi). lia.
    + destruct Ha as [Ha|Ha].
      * destruct (Nat.ltb_spec j (m - 1)) as [Hlt|Hge].
        -- destruct Hb as [(bj2 & bj & E2 & E1 & Eb) Hbb]. rewrite Hcnt in E2 by lia. injection E2 as <-.
           destruct Hbb as [Hbb|Hbb]; [right|left; lia]. rewrite Hc'. rewrite Ha in Hbb.
           rewrite Eb, list_lookup_insert_ne in Hbb by lia.
           rewrite list_lookup_insert in Hbb by (rewrite (vi_b m s Hi); lia). by injection Hbb.
        -- left. lia.
      * exfalso. pose proof (cnt_zero _ _ _ Ha Hhc) as H. rewrite ind_initial in H. done.
Qed.

Lemma second_token t0 t s : 2 <= m -> inv s -> before 1 s -> first_state t0 s ->
  exists s', v2_while unit2 pick m m 1 t 0 s = Some s' /\ ranked t s'.
Proof.
  intros Hm2 Hi Hb (Hh & Ha & Hbm).
  destruct (while_rule unit2 pick m Hk (second t) 1 t) with (fuel := m) (j := 0) (s := s)
    as (j' & s' & E & Hi' & Hs & Haj & _); [|done| |lia|].
  - intros j s0 s1 Hi0 Hs0 Hj0 E0. by apply (second_step t j s0 s1).
  - assert (Hrep : replicate m initial !! 0 = Some initial) by (apply lookup_replicate_2; lia).
    split.
    + by apply before_lazy.
    + exists t0, 0. split_and!; [lia| |by apply value_zero; lia]. rewrite Hh. apply list_lookup_insert.
      rewrite replicate_length. lia.
    + intros k c Hk0. lia.
    + intros c Hc _. rewrite Hh, list_lookup_insert_ne by lia. apply lookup_replicate_2; lia.
    + intros _. rewrite Hbm by done. rewrite Hh, (cnt_insert _ 0 initial) by done.
      rewrite cnt_replicate, ind_initial, ind_value by lia. f_equal. lia.
    + by left.
  - exists s'. split; [done|]. destruct Hs as [_ (u & k & Hkm & Hz & Hz0) Hseen Hfresh _ Hc]. split; [by eauto|].
    intros c Hcm. destruct (slot_surj (pick t m) m (Hk t) c ltac:(lia)) as (j & Hj & Es).
    exists j. split; [done|]. split; [done|].
    destruct (decide (j < j')) as [Hlt|Hge]; [apply Hseen; try done; lia|].
    exfalso. destruct Hc as [Hc|Hc]; [lia|].
    assert (Hf : v2_h s' !! c = Some initial).
    { apply Hfresh; [lia|]. intros k' Hk' Hkm' Es'. pose proof (slot_inj t k' j c Hkm' Hj Es' Es). lia. }
    pose proof (cnt_zero _ _ _ Hc Hf) as H. rewrite ind_initial in H. done.
Qed.
End Cells.
