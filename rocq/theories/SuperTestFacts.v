(** The signatures of the unit tests of super_min_hash.rs, computed with one set of draws per token
    and once for the common beginning of two texts. *)
From stdpp Require Import base list.
From Coq Require Import NArith Lia.
From Verif Require Import Base Par Float Similarity SpecIndex SuperMinHash SpecSuper Fnv FastHash Rng RngUnit RngSuper SuperTest.
From Verif Require Import SimilarityFacts MinHashIndexFacts2 SuperFacts SuperFacts2 SuperFacts3.

(** *** V1 *)
Definition v1_step (m : nat) (h : list f32) (seed : N) : res (list f32) :=
  '(p, us) ← v1_draws 30 seed m;
  v1_token (fun _ _ => p) (fun _ _ j => default (f32_of_N 0) (us !! j)) m h seed.
Definition v1_steps (m : nat) (h : list f32) (seeds : list N) : res (list f32) :=
  foldl (fun acc seed => h ← acc; v1_step m h seed) (Ok h) seeds.

Lemma v1_step_ok fuel m h seed h' : 30 <= fuel -> v1_step m h seed = Some h' ->
  v1_token (std_shuffle fuel) (std_unit1 fuel) m h seed = Some h'.
Proof.
  intros Hf. unfold v1_step. destruct (v1_draws 30 seed m) as [[p us]|] eqn:E; [|done].
  apply (v1_fuel _ _ _ _ _ Hf) in E. intros <-. cbn [mbind option_bind]. unfold v1_token.
  apply mapM_ext'. intros j. unfold std_shuffle, std_unit1. by rewrite E.
Qed.

Lemma v1_none {A} (f : list f32 -> A -> res (list f32)) l : foldl (fun acc a => h ← acc; f h a) None l = None.
Proof. by induction l. Qed.

Lemma v1_steps_ok fuel m seeds : 30 <= fuel -> forall h h', v1_steps m h seeds = Some h' ->
  foldl (fun acc seed => h ← acc; v1_token (std_shuffle fuel) (std_unit1 fuel) m h seed) (Ok h) seeds = Some h'.
Proof.
  intros Hf. unfold v1_steps. induction seeds as [|t seeds IH]; intros h h' E; [done|].
  cbn [foldl mbind option_bind] in *. destruct (v1_step m h t) as [h1|] eqn:E1; [|by rewrite v1_none in E].
  rewrite (v1_step_ok fuel m h t h1 Hf E1). by apply IH.
Qed.

Lemma v1_computed fuel m tokens pre post mid h : 30 <= fuel -> fast_str <$> tokens = pre ++ post ->
  v1_steps m (replicate m initial) pre = Some mid -> v1_steps m mid post = Some h ->
  std_v1 fuel m tokens = Some (f32_as_u32 <$> h).
Proof.
  intros Hf Et E1 E2. unfold std_v1, v1_create_signature.
  rewrite <- (list_fmap_ext fast_str hash_str tokens) by (intros ? x _; apply fast_str_ok). rewrite Et, foldl_app.
  rewrite (v1_steps_ok fuel m pre Hf _ _ E1). rewrite (v1_steps_ok fuel m post Hf _ _ E2). done.
Qed.

(** *** V2 *)
Definition v2_step (m i : nat) (seed : N) (s : v2_state) : res v2_state :=
  l ← v2_draws 30 seed m;
  v2_while (fun _ _ j => default (f32_of_N 0) ((l !! j) ≫= fun d => Some d.1))
    (fun _ _ j => default j ((l !! j) ≫= fun d => Some (N.to_nat d.2))) m m i seed 0 s.
Fixpoint v2_steps (m i : nat) (seeds : list N) (s : v2_state) : res v2_state :=
  match seeds with
  | [] => Ok s
  | t :: seeds' => s' ← v2_step m i t s; v2_steps m (S i) seeds' s'
  end.

Lemma v2_while_ext u u' p p' fuel m i seed : (forall j, u seed m j = u' seed m j) -> (forall j, p seed m j = p' seed m j) ->
  forall j s, v2_while u p fuel m i seed j s = v2_while u' p' fuel m i seed j s.
Proof.
  intros Hu Hp. induction fuel as [|fuel IH]; intros j s; cbn [v2_while]; [done|].
  destruct (j <=? v2_a s)%nat; [|done]. unfold v2_round. rewrite Hu, Hp.
  match goal with |- (?a ≫= _) = _ => destruct a as [s1|] end; [apply IH|done].
Qed.

Lemma v2_step_ok fuel m i seed s s' : 30 <= fuel -> v2_step m i seed s = Some s' ->
  v2_while (std_unit2 fuel) (std_pick fuel) m m i seed 0 s = Some s'.
Proof.
  intros Hf. unfold v2_step. destruct (v2_draws 30 seed m) as [l|] eqn:E; [|done].
  apply (v2_fuel _ _ _ _ Hf) in E. intros <-. cbn [mbind option_bind].
  apply v2_while_ext; intros j; unfold std_unit2, std_pick, v2_draws; by rewrite E.
Qed.

Lemma v2_steps_ok fuel m seeds : 30 <= fuel -> forall i s s', v2_steps m i seeds s = Some s' ->
  v2_tokens (std_unit2 fuel) (std_pick fuel) m i seeds s = Some s'.
Proof.
  intros Hf. induction seeds as [|t seeds IH]; intros i s s' E; [done|]. cbn [v2_steps v2_tokens] in *.
  destruct (v2_step m i t s) as [s1|] eqn:E1; [|done]. cbn [mbind option_bind] in E.
  rewrite (v2_step_ok fuel m i t s s1 Hf E1). cbn [mbind option_bind]. by apply IH.
Qed.

Lemma v2_tokens_app u p m xs ys : forall i s,
  v2_tokens u p m i (xs ++ ys) s = s' ← v2_tokens u p m i xs s; v2_tokens u p m (i + length xs) ys s'.
Proof.
  induction xs as [|x xs IH]; intros i s; cbn [app v2_tokens length].
  { cbn [mbind option_bind]. by rewrite Nat.add_0_r. }
  destruct (v2_while u p m m i x 0 s) as [s1|]; [|done]. cbn [mbind option_bind]. rewrite IH.
  by replace (S i + length xs) with (i + S (length xs)) by lia.
Qed.

Lemma v2_computed fuel m tokens pre post start mid s : 30 <= fuel -> fast_str <$> tokens = pre ++ post ->
  v2_start m = Some start -> v2_steps m 0 pre start = Some mid -> v2_steps m (length pre) post mid = Some s ->
  std_v2 fuel m tokens = Some (f32_as_u32 <$> v2_h s).
Proof.
  intros Hf Et E0 E1 E2. unfold std_v2, v2_create_signature.
  rewrite <- (list_fmap_ext fast_str hash_str tokens) by (intros ? x _; apply fast_str_ok). rewrite Et, E0.
  cbn [mbind option_bind]. rewrite v2_tokens_app, (v2_steps_ok fuel m pre Hf _ _ _ E1). cbn [mbind option_bind].
  rewrite Nat.add_0_l, (v2_steps_ok fuel m post Hf _ _ _ E2). done.
Qed.

(** *** The default methods *)
Lemma super_sim {U} (create : list U -> res (list N)) xs ys sx sy : create xs = Ok sx -> create ys = Ok sy ->
  length sx = length sy -> super_similarity create xs ys = Ok (sim sx sy).
Proof. intros Hx Hy Hl. unfold super_similarity. rewrite Hx, Hy. cbn [mbind option_bind]. by apply similarity_sim. Qed.

Lemma bits24 m : (N.of_nat m <= 2 ^ 24)%N -> (N.of_nat m <= 2 ^ 53)%N.
Proof. intros H. etransitivity; [exact H|]. discriminate. Qed.

Lemma v1_similarity fuel m xs ys : (N.of_nat m <= 2 ^ 24)%N ->
  exists sx sy, std_v1 fuel m xs = Ok sx /\ std_v1 fuel m ys = Ok sy /\ length sx = m /\ length sy = m /\
    super_similarity (std_v1 fuel m) xs ys = Ok (sim sx sy) /\
    super_similarity (std_v1 fuel m) ys xs = Ok (sim sx sy).
Proof.
  intros Hm. destruct (std_super fuel m) as (H1 & H2 & _).
  destruct (v1_sig _ _ m H1 H2 Hm (hash_str <$> xs)) as (sx & Ex & Sx).
  destruct (v1_sig _ _ m H1 H2 Hm (hash_str <$> ys)) as (sy & Ey & Sy).
  assert (Lx : length sx = m) by (subst sx; by rewrite fmap_length, seq_length).
  assert (Ly : length sy = m) by (subst sy; by rewrite fmap_length, seq_length).
  exists sx, sy. do 4 (split; [done|]).
  split; [by apply super_sim; [..|congruence]|].
  rewrite sim_comm by congruence. by apply super_sim; [..|congruence].
Qed.

Lemma v1_same fuel m xs ys : 0 < m -> (N.of_nat m <= 2 ^ 24)%N -> (forall t, t ∈ xs <-> t ∈ ys) ->
  super_similarity (std_v1 fuel m) xs ys = Ok f64_one.
Proof.
  intros H0 Hm Hset. destruct (v1_similarity fuel m xs ys Hm) as (sx & sy & Ex & Ey & Lx & Ly & -> & _).
  destruct (std_super fuel m) as (H1 & H2 & _). unfold std_v1 in *.
  rewrite (v1_set _ _ m H1 H2 Hm (hash_str <$> xs) (hash_str <$> ys)), Ey in Ex.
  { injection Ex as ->. f_equal. apply sim_refl; rewrite Lx; [done|by apply bits24]. }
  intros t. rewrite !elem_of_list_fmap. setoid_rewrite Hset. done.
Qed.

Lemma v2_similarity fuel m xs ys : (N.of_nat m <= 2 ^ 24)%N -> 0 < m ->
  exists sx sy, std_v2 fuel m xs = Ok sx /\ std_v2 fuel m ys = Ok sy /\ length sx = m /\ length sy = m /\
    super_similarity (std_v2 fuel m) xs ys = Ok (sim sx sy) /\
    super_similarity (std_v2 fuel m) ys xs = Ok (sim sx sy).
Proof.
  intros Hm H0. destruct (std_super fuel m) as (_ & _ & H1 & H2).
  destruct (v2_ok _ _ m H1 H2 Hm (hash_str <$> xs) H0) as (sx & Ex & Lx).
  destruct (v2_ok _ _ m H1 H2 Hm (hash_str <$> ys) H0) as (sy & Ey & Ly).
  exists sx, sy. do 4 (split; [done|]).
  split; [by apply super_sim; [..|congruence]|].
  rewrite sim_comm by congruence. by apply super_sim; [..|congruence].
Qed.

Lemma v2_equal fuel m xs ys : 0 < m -> (N.of_nat m <= 2 ^ 24)%N -> std_v2 fuel m xs = std_v2 fuel m ys ->
  super_similarity (std_v2 fuel m) xs ys = Ok f64_one.
Proof.
  intros H0 Hm E. destruct (v2_similarity fuel m xs ys Hm H0) as (sx & sy & Ex & Ey & Lx & Ly & -> & _).
  rewrite E, Ey in Ex. injection Ex as ->. f_equal. apply sim_refl; rewrite Lx; [done|by apply bits24].
Qed.

Lemma v2_single fuel m x y : 0 < m -> (N.of_nat m <= 2 ^ 24)%N ->
  super_similarity (std_v2 fuel m) [x] [y] = Ok f64_one.
Proof.
  intros H0 Hm. apply v2_equal; [done..|]. destruct (std_super fuel m) as (_ & _ & H1 & H2).
  unfold std_v2. cbn [fmap list_fmap]. by rewrite !(v2_one _ _ m H1 H2 Hm).
Qed.

Lemma v2_second fuel m x y t : 0 < m -> (N.of_nat m <= 2 ^ 24)%N ->
  super_similarity (std_v2 fuel m) [x; t] [y; t] = Ok f64_one.
Proof.
  intros H0 Hm. apply v2_equal; [done..|]. destruct (std_super fuel m) as (_ & _ & H1 & H2).
  unfold std_v2. cbn [fmap list_fmap]. apply (v2_two_first _ _ m H1 H2 Hm).
Qed.
