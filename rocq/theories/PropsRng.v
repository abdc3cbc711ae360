(** C78: the random numbers of the hashers. *)
From stdpp Require Import base list.
From Coq Require Import NArith ZArith Lia.
From Verif Require Import Base Float MinHasher SuperMinHash SpecSuper Rng SpecRng RngFacts RngStream RngDraws RngUnit RngSuper.
Local Open Scope N_scope.

(** The words of the seeded generator are the ChaCha12 key stream of the key made from the seed. *)
Theorem C78_stream (seed : N) (n : nat) (ws : list N) r : N.of_nat n < 2 ^ 63 ->
  repeat_draw (fun r => Some (std_next r)) n (std_seed_from_u64 seed) = Some (ws, r) ->
  length ws = n /\ forall i, (i < n)%nat -> ws !! i = Some (key_stream 6 (key_of_seed seed) i).
Proof. exact (seed_stream seed n ws r). Qed.
Print Assumptions C78_stream.

(** Of the words of 32 or 64 bits (or any other number) the same number go to each value of the
    range, and at least half are used. *)
Theorem C78_uniform (bits low high : N) : low < high -> high - low < 2 ^ bits ->
  let share := 2 ^ bits / (high - low) in
  fair (try_word bits low (high - low) (uniform_zone bits (high - low))) (2 ^ bits) low high share /\
  2 ^ bits <= 2 * (share * (high - low)).
Proof. exact (uniform_fair bits low high). Qed.
Print Assumptions C78_uniform.

Theorem C78_gen_index (n : N) : 0 < n < 2 ^ 32 ->
  let share := 2 ^ (32 - N.size n) in
  fair (try_word 32 0 n (single_zone n)) (2 ^ 32) 0 n share /\ 2 ^ 32 <= 2 * (share * n).
Proof. exact (gen_index_fair n). Qed.
Print Assumptions C78_gen_index.

(** The numbers drawn are in the range, and giving the loop more rounds does not change them. *)
Theorem C78_draw (fuel fuel' : nat) (bits low high : N) (r : std_rng) (x : N) r' :
  bits = 32 \/ bits = 64 -> low < high -> Forall (fun w => w < 2 ^ 32) (rng_buffer r) ->
  uniform_sample std_next fuel bits low high r = Some (x, r') ->
  low <= x < high /\ Forall (fun w => w < 2 ^ 32) (rng_buffer r') /\
  ((fuel <= fuel')%nat -> uniform_sample std_next fuel' bits low high r = Some (x, r')).
Proof. exact (std_sample fuel fuel' bits low high r x r'). Qed.
Print Assumptions C78_draw.

(** The f32 numbers are the multiples of 2^-23 in 0..1, each from 512 words. *)
Theorem C78_unit (v : N) : v < 2 ^ 32 -> unit_of_word v = unit_frac (v / 512) /\ is_unit (unit_of_word v).
Proof. intros Hv. split; [exact (unit_of_word_frac v Hv)|exact (unit_of_word_unit v Hv)]. Qed.
Print Assumptions C78_unit.

Theorem C78_unit_fair (k : N) : k < 2 ^ 23 ->
  exists l : list N, NoDup l /\ length l = 512%nat /\ forall v, v ∈ l <-> v < 2 ^ 32 /\ unit_of_word v = unit_frac k.
Proof. exact (unit_fair k). Qed.
Print Assumptions C78_unit_fair.

(** A shuffle exchanges each place from the last down with a place not above it ... *)
Theorem C78_shuffle {A} (fuel : nat) (l l' : list A) (seed : N) r :
  shuffle std_next fuel l (std_seed_from_u64 seed) = Some (l', r) ->
  exists ks, downward (length l - 1) ks /\ l' = exchanges (length l - 1) l ks /\ l' ≡ₚ l.
Proof. exact (std_shuffled fuel l l' seed r). Qed.
Print Assumptions C78_shuffle.

(** ... and exactly one choice of places leads to each order. *)
Theorem C78_orders {A} (l l' : list A) : NoDup l -> l ≠ [] -> l' ≡ₚ l ->
  exists! ks, downward (length l - 1) ks /\ exchanges (length l - 1) l ks = l'.
Proof. exact (orders_unique l l'). Qed.
Print Assumptions C78_orders.

(** The coefficients of the minhashers: in range, and read off the stream. *)
Theorem C78_coefficients (fuel : nat) (k : hasher_kind) (n : nat) (seed : N) (h : hasher) :
  std_hasher fuel k n seed = Some h ->
  num_hashes h = n /\ length (coef_a h) = n /\ length (coef_b h) = n /\
  Forall (fun a => 1 <= a < prime k) (coef_a h) /\ Forall (fun b => b < prime k) (coef_b h) /\
  (exists draws, h = new_with_hasher_and_seed draws n seed) /\
  forall fuel', (fuel <= fuel')%nat -> std_hasher fuel' k n seed = Some h.
Proof. exact (std_coefficients fuel k n seed h). Qed.
Print Assumptions C78_coefficients.

Theorem C78_coefficients_stream (fuel : nat) (k : hasher_kind) (n : nat) (seed : N) (h : hasher) :
  std_hasher fuel k n seed = Some h -> N.of_nat (4 * fuel * n) < 2 ^ 63 ->
  exists c d, let s := key_stream 6 (key_of_seed seed) in
    coef_a h = omap (accept (word_bits k) 1 (prime k)) (wide (word_bits k) (s <$> seq 0 c)) /\
    coef_b h = omap (accept (word_bits k) 0 (prime k)) (wide (word_bits k) (s <$> seq c d)).
Proof. exact (hasher_stream fuel k n seed h). Qed.
Print Assumptions C78_coefficients_stream.

(** A hasher with more hashes has the multipliers of the smaller one first ... *)
Theorem C78_prefix (fuel : nat) (k : hasher_kind) (n n' : nat) (seed : N) (h h' : hasher) : (n <= n')%nat ->
  std_hasher fuel k n seed = Some h -> std_hasher fuel k n' seed = Some h' -> coef_a h = take n (coef_a h').
Proof. exact (multipliers_prefix fuel k n n' seed h h'). Qed.
Print Assumptions C78_prefix.

(** ... but not its increments: the signatures of two sizes do not fit together. *)
Theorem C78_prefix_refuted : exists fuel k n n' h h' (sig sig' : list N), (n <= n')%nat /\
  std_hasher_new fuel k n = Some h /\ std_hasher_new fuel k n' = Some h' /\
  coef_b h ≠ take n (coef_b h') /\
  create_signature k id h [1; 2; 3] = Ok sig /\ create_signature k id h' [1; 2; 3] = Ok sig' /\ sig ≠ take n sig'.
Proof.
  exists 9%nat, MinHasher32, 2%nat, 3%nat. eexists _, _, _, _.
  split; [lia|]. split; [vm_compute; reflexivity|]. split; [vm_compute; reflexivity|].
  split; [vm_compute; discriminate|]. split; [vm_compute; reflexivity|]. split; [vm_compute; reflexivity|].
  vm_compute; discriminate.
Qed.
Print Assumptions C78_prefix_refuted.

(** What C60, C61 and C71 assume of the numbers drawn holds for this generator. *)
Theorem C78_super (fuel m : nat) :
  (forall t, std_shuffle fuel t m ≡ₚ (N.of_nat <$> seq 0 m)) /\ (forall t j, is_unit (std_unit1 fuel t m j)) /\
  (forall t j, (j < m)%nat -> (j <= std_pick fuel t m j < m)%nat) /\ (forall t j, is_unit (std_unit2 fuel t m j)).
Proof. exact (std_super fuel m). Qed.
Print Assumptions C78_super.

(** And they are read from the key stream of the token's hash: SuperMinHash32V1 chooses the places of
    the shuffle with the first words and makes its numbers of 0..1 from the next [m] words. *)
Theorem C78_super1 (fuel m : nat) (seed : N) (p : list N) (us : list f32) :
  N.of_nat m < 2 ^ 32 -> N.of_nat (2 * fuel * m + m) < 2 ^ 63 -> v1_draws fuel seed m = Some (p, us) ->
  std_shuffle fuel seed m = p /\ (forall j u, us !! j = Some u -> std_unit1 fuel seed m j = u) /\
  exists chunks ks, let s := key_stream 6 (key_of_seed seed) in let c := length (concat chunks) in
    concat chunks = s <$> seq 0 c /\ choices (m - 1) chunks ks /\
    p = exchanges (m - 1) (N.of_nat <$> seq 0 m) ks /\
    us = (fun w => unit_frac (w / 512)) <$> (s <$> seq c m).
Proof.
  intros Hm Hf E. destruct (v1_fields _ _ _ _ _ E) as [H1 H2].
  split; [exact H1|]. split; [exact H2|]. exact (v1_stream fuel seed m p us Hm Hf E).
Qed.
Print Assumptions C78_super1.

(** SuperMinHash32V2 reads, round by round, a word for the number of 0..1 and pairs of words for the place. *)
Theorem C78_super2 (fuel m : nat) (seed : N) (l : list (f32 * N)) :
  N.of_nat m < 2 ^ 64 -> N.of_nat ((2 * fuel + 1) * m) < 2 ^ 63 -> v2_draws fuel seed m = Some l ->
  (forall j u k, l !! j = Some (u, k) -> std_unit2 fuel seed m j = u /\ std_pick fuel seed m j = N.to_nat k) /\
  exists chunks, concat chunks = key_stream 6 (key_of_seed seed) <$> seq 0 (length (concat chunks)) /\ rounds m 0 chunks l.
Proof. intros Hm Hf E. split; [exact (v2_fields _ _ _ _ E)|exact (v2_stream fuel seed m l Hm Hf E)]. Qed.
Print Assumptions C78_super2.

(** The rounds allowed do not matter when they suffice. *)
Theorem C78_super_fuel (fuel fuel' m : nat) (seed : N) : (fuel <= fuel')%nat ->
  (forall d, v1_draws fuel seed m = Some d -> v1_draws fuel' seed m = Some d) /\
  (forall l, v2_draws fuel seed m = Some l -> v2_draws fuel' seed m = Some l).
Proof. intros H. split; [intros d; exact (v1_fuel fuel fuel' seed m d H)|intros l; exact (v2_fuel fuel fuel' m m H 0%nat _ l)]. Qed.
Print Assumptions C78_super_fuel.

(** With these numbers too, SuperMinHash32V2 depends on the order and the repetition of tokens. *)
Theorem C78_order_refuted : exists fuel m (s s' s1 s2 : list N),
  v2_create_signature (std_unit2 fuel) (std_pick fuel) m [1; 2] = Ok s /\
  v2_create_signature (std_unit2 fuel) (std_pick fuel) m [2; 1] = Ok s' /\ s ≠ s' /\
  v2_create_signature (std_unit2 fuel) (std_pick fuel) m [1] = Ok s1 /\
  v2_create_signature (std_unit2 fuel) (std_pick fuel) m [1; 1] = Ok s2 /\ s1 ≠ s2.
Proof.
  exists 9%nat, 4%nat. eexists _, _, _, _.
  split; [vm_compute; reflexivity|]. split; [vm_compute; reflexivity|]. split; [discriminate|].
  split; [vm_compute; reflexivity|]. split; [vm_compute; reflexivity|]. discriminate.
Qed.
Print Assumptions C78_order_refuted.

(** ** Concrete cases *)

(** RFC 8439, section 2.1.1, and the first words of the ChaCha20 key stream of the zero key. *)
Example ex_quarter : Qround [286331153; 16909060; 2609737539; 19088743] 0 1 2 3
  = [3928658676; 3407673550; 1166100270; 1484899515].
Proof. vm_compute. reflexivity. Qed.
Example ex_zero_key : take 4 (key_stream_block 10 (replicate 8 0) 0) = [2917185654; 2419978656; 3848953152; 683509331].
Proof. vm_compute. reflexivity. Qed.

(** The first words for the default seed 3. *)
Example ex_words : exists r, repeat_draw (fun r => Some (std_next r)) 3 (std_seed_from_u64 3)
    = Some (key_stream 6 (key_of_seed 3) <$> seq 0 3, r) /\ key_stream 6 (key_of_seed 3) 0 = 2781141484.
Proof. eexists. vm_compute. split; reflexivity. Qed.

(** Six values from 8-bit words: 42 words each, 4 words unused. *)
Example ex_fair : 2 ^ 8 / 6 = 42 /\ accept 8 0 6 0 = Some 0 /\ accept 8 0 6 255 = Some 5 /\
  length (filter (fun v => accept 8 0 6 (N.of_nat v) = Some 3) (seq 0 256)) = 42%nat /\
  length (filter (fun v => accept 8 0 6 (N.of_nat v) = None) (seq 0 256)) = 4%nat.
Proof. vm_compute. split_and!; reflexivity. Qed.

Example ex_units : unit_of_word 0 = f32_of_N 0 /\ unit_of_word (2 ^ 31 + 5) = SFdiv 24 128 (f32_of_N 1) (f32_of_N 2) /\
  unit_of_word (2 ^ 32 - 1) = unit_frac 8388607.
Proof. vm_compute. split_and!; reflexivity. Qed.

(** The orders of three things. *)
Example ex_orders : exchanges 2 [10; 11; 12] [0; 0]%nat = [11; 12; 10] /\ exchanges 2 [10; 11; 12] [2; 1]%nat = [10; 11; 12] /\
  downward 2 [0; 0]%nat /\ ~ downward 2 [3; 0]%nat.
Proof. split; [reflexivity|]. split; [reflexivity|]. cbn. lia. Qed.

(** The coefficients of the default hashers. *)
Example ex_hasher32 : std_hasher_new 9 MinHasher32 3
  = Some (Hasher [1390570741; 204460191; 2105818529] [756961482; 306114139; 394804610] 3).
Proof. vm_compute. reflexivity. Qed.
Example ex_prefix : exists h, std_hasher_new 9 MinHasher32 2 = Some h /\ coef_a h = [1390570741; 204460191].
Proof. eexists. split; [vm_compute; reflexivity|reflexivity]. Qed.

(** The draws for the token hashes 7 and 8; for 7 the first words are 1789459390, 130212073, ... *)
Example ex_super1 : exists us us', v1_draws 9 7 4 = Some ([1; 2; 3; 0], us) /\ v1_draws 9 8 4 = Some ([0; 3; 2; 1], us') /\
  key_stream 6 (key_of_seed 7) <$> seq 0 5 = [1789459390; 130212073; 612261766; 1318925544; 260816077] /\
  choices 3 [[1789459390; 130212073]; [612261766]; [1318925544; 260816077]] [0; 0; 0]%nat /\
  accept_index 4 1789459390 = None /\ accept_index 4 130212073 = Some 0.
Proof. eexists _, _. split; [vm_compute; reflexivity|]. vm_compute. split_and!; reflexivity. Qed.
Example ex_super2 : exists u0 u1 u2 u3, v2_draws 9 7 4 = Some [(u0, 0); (u1, 1); (u2, 3); (u3, 3)] /\
  u0 = unit_frac (1789459390 / 512) /\ accept 64 0 4 (130212073 + 2 ^ 32 * 612261766) = Some 0.
Proof. eexists _, _, _, _. split; [vm_compute; reflexivity|]. vm_compute. split; reflexivity. Qed.
