(** Proofs about SuperMinHash.v: whole signatures. *)
From stdpp Require Import base list.
From Coq Require Import NArith ZArith Lia.
From Verif Require Import ListFacts Base Float SuperMinHash SpecSuper SuperFloat SuperFacts SuperFacts2.
Local Open Scope nat_scope.

Section V1.
Context (shuffle : N -> nat -> list N) (unit1 : N -> nat -> nat -> f32) (m : nat).
Context (Hs : forall seed, shuffle seed m ≡ₚ (N.of_nat <$> seq 0 m)).
Context (Hu : forall seed j, is_unit (unit1 seed m j)).
Context (Hm : (N.of_nat m <= 2 ^ 24)%N).
Notation sig := (v1_create_signature shuffle unit1 m).

Lemma v1_one t : exists s, sig [t] = Ok s /\ length s = m /\
  forall j v, s !! j = Some v -> exists p, shuffle t m !! j = Some p /\
    v = f32_as_u32 (f32_add (unit1 t m j) (f32_of_N p)) /\ (v = p \/ v = p + 1)%N.
Proof.
  destruct (v1_sig shuffle unit1 m Hs Hu Hm [t]) as (s & E & ->). eexists. split; [exact E|].
  split; [by rewrite fmap_length, seq_length|]. intros j v.
  rewrite list_lookup_fmap. intros Hv. apply fmap_Some in Hv as (j' & Hj & ->).
  apply lookup_seq in Hj as [-> Hj]. cbn [plus].
  destruct (shuffle_lookup shuffle m Hs Hm t j Hj) as (p & Hp & Hlt). exists p. split; [done|].
  change (offer shuffle unit1 m j <$> [t]) with [offer shuffle unit1 m j t]. unfold least. cbn [foldr].
  assert (Ho : offer shuffle unit1 m j t = f32_as_u32 (f32_add (unit1 t m j) (f32_of_N p)))
    by (unfold offer; by rewrite Hp).
  rewrite <- Ho. pose proof (offer_rank shuffle unit1 m Hs Hu Hm t j p Hp) as [-> | ->]; lia.
Qed.

Lemma v1_union ts1 ts2 : exists s1 s2, sig ts1 = Ok s1 /\ sig ts2 = Ok s2 /\
  sig (ts1 ++ ts2) = Ok (zip_with N.min s1 s2).
Proof.
  destruct (v1_sig shuffle unit1 m Hs Hu Hm ts1) as (s1 & E1 & H1).
  destruct (v1_sig shuffle unit1 m Hs Hu Hm ts2) as (s2 & E2 & H2).
  destruct (v1_sig shuffle unit1 m Hs Hu Hm (ts1 ++ ts2)) as (s & E & H).
  exists s1, s2. split_and!; try done. rewrite E. f_equal. rewrite H, H1, H2. apply list_eq. intros j.
  rewrite lookup_zip_with, !list_lookup_fmap. destruct (seq 0 m !! j) as [j'|]; [|done]. cbn.
  by rewrite fmap_app, least_app.
Qed.

Lemma v1_set ts1 ts2 : (forall t, t ∈ ts1 <-> t ∈ ts2) -> sig ts1 = sig ts2.
Proof.
  intros Hset. destruct (v1_sig shuffle unit1 m Hs Hu Hm ts1) as (s1 & -> & ->).
  destruct (v1_sig shuffle unit1 m Hs Hu Hm ts2) as (s2 & -> & ->). f_equal.
  apply list_fmap_ext. intros i x _. apply least_set. intros v. rewrite !elem_of_list_fmap.
  split; intros (t & -> & Ht); exists t; (split; [done|]); by apply Hset.
Qed.

Lemma v1_empty : sig [] = Ok (replicate m 100000000%N).
Proof.
  destruct (v1_sig shuffle unit1 m Hs Hu Hm []) as (s & -> & ->). f_equal. cbn [fmap list_fmap].
  apply list_eq. intros j. rewrite list_lookup_fmap. destruct (decide (j < m)).
  - rewrite lookup_seq_lt by done. by rewrite lookup_replicate_2.
  - rewrite (lookup_ge_None_2 (seq 0 m)), (lookup_ge_None_2 (replicate _ _)); [done|rewrite replicate_length; lia|rewrite seq_length; lia].
Qed.
End V1.

Section V2.
Context (unit2 : N -> nat -> nat -> f32) (pick : N -> nat -> nat -> nat) (m : nat).
Context (Hk : forall seed j, j < m -> j <= pick seed m j < m).
Context (Hu : forall seed j, is_unit (unit2 seed m j)).
Context (Hm : (N.of_nat m <= 2 ^ 24)%N).
Notation sig := (v2_create_signature unit2 pick m).
Notation slot t := (slot (pick t m) m).
Notation value := (value unit2 m).

Lemma v2_zero : m = 0 -> forall ts, sig ts = Panic.
Proof. intros -> ts. done. Qed.

Lemma start_nonneg s : 0 < m -> v2_start m = Some s -> all_nonneg s.
Proof.
  intros H0 Es. destruct (start_ok pick m Hk H0) as (s0 & E0 & _ & Hs). rewrite Es in E0. injection E0 as <-.
  rewrite Hs. intros c x Hx. cbn in Hx. apply lookup_replicate in Hx as [-> _]. apply initial_nonneg.
Qed.

Lemma sig_state ts : 0 < m -> exists s0 s, v2_start m = Some s0 /\ v2_tokens unit2 pick m 0 ts s0 = Some s /\
  v2_inv m s /\ all_nonneg s /\ sig ts = Ok (f32_as_u32 <$> v2_h s).
Proof.
  intros H0. destruct (start_ok pick m Hk H0) as (s0 & E0 & Hi & _).
  destruct (tokens_below unit2 pick m Hk Hu Hm ts 0 s0 Hi (start_nonneg s0 H0 E0)) as (s & E & Hi' & Hn & _).
  exists s0, s. split_and!; try done. unfold v2_create_signature. rewrite E0. cbn [mbind option_bind].
  by rewrite E.
Qed.

Lemma v2_ok ts : 0 < m -> exists s, sig ts = Ok s /\ length s = m.
Proof.
  intros H0. destruct (sig_state ts H0) as (s0 & s & _ & _ & Hi & _ & ->). eexists. split; [done|].
  rewrite fmap_length. apply Hi.
Qed.

Lemma v2_empty : 0 < m -> sig [] = Ok (replicate m 100000000%N).
Proof.
  intros H0. destruct (start_ok pick m Hk H0) as (s0 & E0 & _ & Hs). unfold v2_create_signature. rewrite E0.
  cbn [mbind option_bind v2_tokens]. rewrite Hs. cbn [v2_h]. by rewrite fmap_replicate, initial_u32.
Qed.

Lemma v2_decrease ts ts' s s' c v : sig ts = Ok s -> sig (ts ++ ts') = Ok s' -> s !! c = Some v ->
  exists v', s' !! c = Some v' /\ (v' <= v)%N.
Proof.
  intros E E' Hv. destruct (decide (m = 0)) as [H0|H0]; [by rewrite v2_zero in E|].
  destruct (sig_state ts ltac:(lia)) as (s0 & s1 & E0 & E1 & Hi1 & Hn1 & Es).
  destruct (tokens_below unit2 pick m Hk Hu Hm ts' (0 + length ts) s1 Hi1 Hn1) as (s2 & E2 & _ & _ & Hb).
  destruct (sig_state (ts ++ ts') ltac:(lia)) as (s0' & s3 & E0' & E3 & _ & _ & Es').
  rewrite E0 in E0'. injection E0' as <-. rewrite tokens_app, E1 in E3. cbn [mbind option_bind] in E3.
  rewrite E2 in E3. injection E3 as <-. rewrite E in Es. injection Es as ->. rewrite E' in Es'. injection Es' as ->.
  rewrite list_lookup_fmap in Hv. apply fmap_Some in Hv as (x & Hx & ->).
  destruct (Hb c x Hx) as (x' & Hx' & Hle). exists (f32_as_u32 x'). by rewrite list_lookup_fmap, Hx'.
Qed.

Lemma one_state t : 0 < m -> exists s0 s, v2_start m = Some s0 /\ v2_tokens unit2 pick m 0 [t] s0 = Some s /\
  v2_inv m s /\ before 1 s /\ first_state unit2 m t s.
Proof.
  intros H0. destruct (start_ok pick m Hk H0) as (s0 & E0 & _). 
  destruct (first_token unit2 pick m Hk Hu Hm t s0 H0 E0) as (s & E & Hi & Hb & Hf).
  exists s0, s. split_and!; try done. cbn [v2_tokens]. by rewrite E.
Qed.

Lemma v2_one t : 0 < m -> sig [t] = Ok (0%N :: replicate (m - 1) 100000000%N).
Proof.
  intros H0. destruct (one_state t H0) as (s0 & s & E0 & E & _ & _ & Hh & _). unfold v2_create_signature. rewrite E0.
  cbn [mbind option_bind]. rewrite E. cbn [mbind option_bind]. rewrite Hh.
  rewrite list_fmap_insert, fmap_replicate, initial_u32, (value_zero unit2 m Hu) by done.
  destruct m as [|m']; [lia|]. cbn [replicate]. cbn. by rewrite Nat.sub_0_r.
Qed.

Lemma v2_first t ts s : sig (t :: ts) = Ok s -> s !! 0 = Some 0%N.
Proof.
  intros E. destruct (decide (m = 0)) as [H0|H0]; [by rewrite v2_zero in E|].
  destruct (v2_decrease [t] ts _ s 0 0%N (v2_one t ltac:(lia)) E) as (v & Hv & Hle); [done|].
  rewrite Hv. f_equal. lia.
Qed.

Lemma two_state t0 t : 2 <= m -> exists s0 s, v2_start m = Some s0 /\ v2_tokens unit2 pick m 0 [t0; t] s0 = Some s /\
  ranked unit2 pick m t s.
Proof.
  intros H2. destruct (one_state t0 ltac:(lia)) as (s0 & s1 & E0 & E & Hi & Hb & Hf).
  destruct (second_token unit2 pick m Hk Hu Hm t0 t s1 H2 Hi Hb Hf) as (s & E1 & Hr).
  exists s0, s. split_and!; try done. change [t0; t] with ([t0] ++ [t]). rewrite tokens_app, E. cbn [mbind option_bind].
  cbn [length plus v2_tokens]. by rewrite E1.
Qed.

Lemma v2_two t0 t s c v : sig [t0; t] = Ok s -> 0 < c -> s !! c = Some v ->
  exists j, j < m /\ slot t j = Some c /\ v = f32_as_u32 (value t j).
Proof.
  intros E Hc Hv. destruct (decide (m = 0)) as [H0|H0]; [by rewrite v2_zero in E|].
  destruct (v2_ok [t0; t] ltac:(lia)) as (s' & E' & Hl). rewrite E in E'. injection E' as <-.
  apply lookup_lt_Some in Hv as Hcm. rewrite Hl in Hcm.
  destruct (two_state t0 t ltac:(lia)) as (s0 & s1 & E0 & E1 & _ & Hr).
  unfold v2_create_signature in E. rewrite E0 in E. cbn [mbind option_bind] in E. rewrite E1 in E.
  cbn [mbind option_bind] in E. injection E as <-. destruct (Hr c ltac:(lia)) as (j & Hj & Hs & Hh).
  exists j. split_and!; try done. rewrite list_lookup_fmap, Hh in Hv. cbn in Hv. by injection Hv as <-.
Qed.

Lemma value_rank t j : j < m -> (f32_as_u32 (value t j) = N.of_nat j \/ f32_as_u32 (value t j) = N.of_nat j + 1)%N.
Proof. intros Hj. by apply value_u32. Qed.

Lemma v2_two_first t0 t0' t : sig [t0; t] = sig [t0'; t].
Proof.
  destruct (decide (m = 0)) as [H0|H0]; [by rewrite !v2_zero|].
  destruct (v2_ok [t0; t] ltac:(lia)) as (s & E & Hl). destruct (v2_ok [t0'; t] ltac:(lia)) as (s' & E' & Hl').
  rewrite E, E'. f_equal. apply list_eq. intros c. destruct (decide (c < m)) as [Hc|Hc].
  2:{ rewrite !lookup_ge_None_2 by lia. done. }
  destruct (decide (c = 0)) as [->|Hc0].
  { by rewrite (v2_first t0 [t] s E), (v2_first t0' [t] s' E'). }
  destruct (lookup_lt_is_Some_2 s c) as [v Hv]; [lia|]. destruct (lookup_lt_is_Some_2 s' c) as [v' Hv']; [lia|].
  destruct (v2_two t0 t s c v E ltac:(lia) Hv) as (j & Hj & Hs & ->).
  destruct (v2_two t0' t s' c v' E' ltac:(lia) Hv') as (j' & Hj' & Hs' & ->).
  rewrite (slot_inj pick m Hk Hm t j j' c Hj Hj' Hs Hs') in Hv. by rewrite Hv, Hv'.
Qed.

Lemma v2_bound t0 t ts s c v : sig (t0 :: t :: ts) = Ok s -> s !! c = Some v -> (v <= N.of_nat m)%N.
Proof.
  intros E Hv. destruct (decide (m = 0)) as [H0|H0]; [by rewrite v2_zero in E|].
  destruct (v2_ok [t0; t] ltac:(lia)) as (s1 & E1 & Hl1).
  destruct (v2_ok (t0 :: t :: ts) ltac:(lia)) as (s' & E' & Hl). rewrite E in E'. injection E' as <-.
  apply lookup_lt_Some in Hv as Hc. rewrite Hl in Hc.
  destruct (lookup_lt_is_Some_2 s1 c) as [v1 Hv1]; [lia|].
  destruct (v2_decrease [t0; t] ts s1 s c v1 E1 E Hv1) as (v' & Hv' & Hle). rewrite Hv in Hv'. injection Hv' as <-.
  destruct (decide (c = 0)) as [->|Hc0].
  - rewrite (v2_first t0 [t] s1 E1) in Hv1. injection Hv1 as <-. lia.
  - destruct (v2_two t0 t s1 c v1 E1 ltac:(lia) Hv1) as (j & Hj & _ & ->).
    pose proof (value_rank t j Hj). lia.
Qed.

Lemma tokens_origin ts0 i ts s : 1 <= i -> v2_inv m s -> before i s -> origins unit2 pick m ts0 s ->
  (forall k t, ts !! k = Some t -> ts0 !! (i + k) = Some t) ->
  exists s', v2_tokens unit2 pick m i ts s = Some s' /\ origins unit2 pick m ts0 s'.
Proof.
  revert i s. induction ts as [|t ts IH]; intros i s Hi1 Hi Hb Ho Hts; [by exists s|].
  cbn [v2_tokens].
  destruct (while_later unit2 pick m Hk Hm ts0 i t s Hi1) as (s' & -> & Hi' & Hb' & Ho'); try done.
  { specialize (Hts 0 t eq_refl). by rewrite Nat.add_0_r in Hts. }
  cbn [mbind option_bind]. apply IH; try done; [lia|]. intros k u Hku.
  specialize (Hts (S k) u Hku). by rewrite Nat.add_succ_r in Hts.
Qed.

Lemma v2_origin ts s c v : sig ts = Ok s -> s !! c = Some v ->
  v = 100000000%N \/ (c = 0 /\ ts ≠ [] /\ v = 0%N) \/
  exists i t j, 1 <= i /\ ts !! i = Some t /\ j < m /\ slot t j = Some c /\ v = f32_as_u32 (value t j).
Proof.
  intros E Hv. destruct (decide (m = 0)) as [H0|H0]; [by rewrite v2_zero in E|].
  destruct ts as [|t ts].
  { rewrite v2_empty in E by lia. injection E as <-. apply lookup_replicate in Hv as [-> _]. by left. }
  destruct (one_state t ltac:(lia)) as (s0 & s1 & E0 & E1 & Hi & Hb & Hf).
  destruct (tokens_origin (t :: ts) 1 ts s1) as (s2 & E2 & Ho); try done.
  { destruct Hf as (Hh & _). intros d x. rewrite Hh.
    intros [(<- & <- & _)|[_ H']]%list_lookup_insert_Some.
    - right. left. split; [done|]. by exists t.
    - apply lookup_replicate in H' as [-> _]. by left. }
  unfold v2_create_signature in E. rewrite E0 in E. cbn [mbind option_bind] in E.
  change (t :: ts) with ([t] ++ ts) in E. rewrite tokens_app, E1 in E. cbn [mbind option_bind length plus] in E.
  rewrite E2 in E. cbn [mbind option_bind] in E. injection E as <-.
  rewrite list_lookup_fmap in Hv. apply fmap_Some in Hv as (x & Hx & ->).
  destruct (Ho c x Hx) as [->|[(-> & t' & _ & ->)|(i & t' & j & H1 & H2 & H3 & H4 & ->)]].
  - left. apply initial_u32.
  - right. left. split; [done|]. split; [done|]. apply value_zero; (done || lia).
  - right. right. exists i, t', j. done.
Qed.
End V2.
