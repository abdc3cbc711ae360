(** Model of the random number generator of the hashers and of the ways they draw from it.
    Definitions only.

    [MinHasher32/16/8] (min_hasher.rs:42-56), [MinHasher64V1] (min_hasher64.rs:40-54) and the
    SuperMinHash variants (super_min_hash.rs:47-51, 101-107) draw from [StdRng::seed_from_u64].
    The code is that of the crates rand 0.8.5, rand_core 0.6 and rand_chacha 0.3 (ChaCha with 12
    rounds), cited by item. Running for more than 2^64 blocks is not modelled. *)
From stdpp Require Import base list.
From Coq Require Import NArith ZArith.
From Verif Require Import Base Float MinHasher SuperMinHash.
Local Open Scope N_scope.

(** [x as u32]: the low 32 bits. *)
Definition low32 (x : N) : N := N.land x 4294967295.
(** [u32::rotate_left] and [u32::rotate_right], for amounts below 32. *)
Definition rotate_left (x n : N) : N := N.lor (low32 (N.shiftl x n)) (N.shiftr x (32 - n)).
Definition rotate_right (x n : N) : N := N.lor (N.shiftr x n) (low32 (N.shiftl x (32 - n))).

(** ** Seeding: rand_core, [SeedableRng::seed_from_u64] *)
Definition pcg_next (state : N) : N :=
  wrapping_add u64 (wrapping_mul u64 state 6364136223846793005) 11634580027462260723.
Definition pcg_output (state : N) : N :=
  rotate_right (low32 (N.shiftr (N.lxor (N.shiftr state 18) state) 27)) (N.shiftr state 59).
(** The seed of 32 bytes, as 8 little-endian words. *)
Fixpoint seed_words (n : nat) (state : N) : list N :=
  match n with
  | O => []
  | S n' => let state' := pcg_next state in pcg_output state' :: seed_words n' state'
  end.
Definition seed_from_u64 (state : N) : list N := seed_words 8 state.

(** ** ChaCha: rand_chacha, [guts] *)
Definition add32 (x y : N) : N := low32 (x + y).
Definition quarter_round (a b c d : N) : N * N * N * N :=
  let a := add32 a b in let d := rotate_left (N.lxor d a) 16 in
  let c := add32 c d in let b := rotate_left (N.lxor b c) 12 in
  let a := add32 a b in let d := rotate_left (N.lxor d a) 8 in
  let c := add32 c d in let b := rotate_left (N.lxor b c) 7 in
  (a, b, c, d).

(** A round over the columns and a round over the diagonals. *)
Definition double_round (s : list N) : list N :=
  match s with
  | [x0;x1;x2;x3;x4;x5;x6;x7;x8;x9;x10;x11;x12;x13;x14;x15] =>
      let '(x0,x4,x8,x12) := quarter_round x0 x4 x8 x12 in
      let '(x1,x5,x9,x13) := quarter_round x1 x5 x9 x13 in
      let '(x2,x6,x10,x14) := quarter_round x2 x6 x10 x14 in
      let '(x3,x7,x11,x15) := quarter_round x3 x7 x11 x15 in
      let '(x0,x5,x10,x15) := quarter_round x0 x5 x10 x15 in
      let '(x1,x6,x11,x12) := quarter_round x1 x6 x11 x12 in
      let '(x2,x7,x8,x13) := quarter_round x2 x7 x8 x13 in
      let '(x3,x4,x9,x14) := quarter_round x3 x4 x9 x14 in
      [x0;x1;x2;x3;x4;x5;x6;x7;x8;x9;x10;x11;x12;x13;x14;x15]
  | _ => s
  end.

(** The constants, the key, the block counter (64 bits) and the stream number 0. *)
Definition chacha_start (key : list N) (counter : N) : list N :=
  [1634760805; 857760878; 2036477234; 1797285236] ++ key ++
  [low32 counter; N.shiftr counter 32; 0; 0].
(** [rounds] double rounds and the final addition. *)
Definition chacha_block (rounds : nat) (key : list N) (counter : N) : list N :=
  let s := chacha_start key counter in
  zip_with add32 (Nat.iter rounds double_round s) s.

(** ** The generator: rand [StdRng], rand_chacha [ChaCha12Rng], rand_core [BlockRng].
    [buffer] holds the words not yet used; [BlockRng] refills it with four blocks at a time, which
    gives the same sequence of words. *)
Record std_rng := StdRng { rng_key : list N; rng_counter : N; rng_buffer : list N }.
Definition std_seed_from_u64 (state : N) : std_rng := StdRng (seed_from_u64 state) 0 [].
(** [next_u32]. *)
Definition std_next (r : std_rng) : N * std_rng :=
  match rng_buffer r with
  | w :: ws => (w, StdRng (rng_key r) (rng_counter r) ws)
  | [] =>
      match chacha_block 6 (rng_key r) (rng_counter r) with
      | w :: ws => (w, StdRng (rng_key r) (rng_counter r + 1) ws)
      | [] => (0, r)
      end
  end.

(** ** Drawing: rand [distributions::uniform], for any generator of 32-bit words *)
Section Draw.
Context {R : Type} (next : R -> N * R).

(** [BlockRng::next_u64]: two words, the low one first. *)
Definition next_u64 (r : R) : N * R :=
  let '(lo, r) := next r in let '(hi, r) := next r in (hi * u32 + lo, r).
(** [rng.gen::<u32>()] and [rng.gen::<u64>()]/[gen::<usize>()]. *)
Definition next_word (bits : N) (r : R) : N * R := if bits =? 32 then next r else next_u64 r.

(** One round of the loops in [UniformInt::sample] and [UniformInt::sample_single_inclusive]: the
    high half of [v * range], or another round if the low half is above [zone]. *)
Definition try_word (bits low range zone v : N) : option N :=
  let p := v * range in
  if p mod 2 ^ bits <=? zone then Some (low + p / 2 ^ bits) else None.

(** The loop. It need not end, so it is given a number of rounds; [None]: they were not enough. *)
Fixpoint draw (fuel : nat) (bits low range zone : N) (r : R) : option (N * R) :=
  match fuel with
  | O => None
  | S fuel' =>
      let '(v, r) := next_word bits r in
      match try_word bits low range zone v with
      | Some x => Some (x, r)
      | None => draw fuel' bits low range zone r
      end
  end.

(** [UniformInt::new(low, high)] and [sample], for 32 and 64 bits. *)
Definition uniform_zone (bits range : N) : N := 2 ^ bits - 1 - (2 ^ bits - 1 - range + 1) mod range.
Definition uniform_sample (fuel : nat) (bits low high : N) (r : R) : option (N * R) :=
  draw fuel bits low (high - low) (uniform_zone bits (high - low)) r.

(** [UniformInt::sample_single(0, ubound)] ([gen_range]), 32 bits: the zone is
    [(range << range.leading_zeros()).wrapping_sub(1)]. *)
Definition single_zone (range : N) : N := N.shiftl range (32 - N.size range) - 1.
Definition gen_index (fuel : nat) (ubound : N) (r : R) : option (N * R) :=
  draw fuel 32 0 ubound (single_zone ubound) r.

(** [UniformFloat::<f32>::new(0, 1)] (the scale is [1 - 0]) and [sample]. *)
Definition unit_of_word (v : N) : f32 :=
  let value1_2 := S754_finite false (N.succ_pos (N.shiftr v 9 + 8388607)) (-23) in
  let value0_1 := SFsub 24 128 value1_2 f32_one in
  f32_add (SFmul 24 128 value0_1 f32_one) (f32_of_N 0).
Definition unit_sample (r : R) : f32 * R := let '(v, r) := next r in (unit_of_word v, r).

(** [n] draws one after another. *)
Fixpoint repeat_draw {A} (f : R -> option (A * R)) (n : nat) (r : R) : option (list A * R) :=
  match n with
  | O => Some ([], r)
  | S n' => '(x, r) ← f r; '(xs, r) ← repeat_draw f n' r; Some (x :: xs, r)
  end.

(** rand [SliceRandom::shuffle]: [for i in (1..len).rev() { swap(i, gen_index(rng, i + 1)) }]. *)
Definition swap {A} (l : list A) (i k : nat) : list A :=
  match l !! i, l !! k with Some x, Some y => <[k := x]> (<[i := y]> l) | _, _ => l end.
Fixpoint shuffle_from {A} (fuel i : nat) (l : list A) (r : R) : option (list A * R) :=
  match i with
  | O => Some (l, r)
  | S i' => '(k, r) ← gen_index fuel (N.of_nat (i + 1)) r;
            shuffle_from fuel i' (swap l i (N.to_nat k)) r
  end.
Definition shuffle {A} (fuel : nat) (l : list A) (r : R) : option (list A * R) :=
  shuffle_from fuel (length l - 1) l r.
End Draw.

(** ** What the hashers draw *)

(** min_hasher.rs:42-56 (32 bits, P = 2^31 - 1) and min_hasher64.rs:40-54 (64 bits, P = 2^61 - 1)
    [new_with_hasher_and_seed]: [n] multipliers from [1..P], then [n] increments from [0..P]. *)
Definition word_bits (k : hasher_kind) : N := match k with MinHasher64V1 => 64 | _ => 32 end.
Definition prime (k : hasher_kind) : N :=
  match k with MinHasher64V1 => mersenne_prime | _ => mersenne_prime_31 end.
Definition std_hasher (fuel : nat) (k : hasher_kind) (n : nat) (seed : N) : option hasher :=
  let r := std_seed_from_u64 seed in
  '(a, r) ← repeat_draw (uniform_sample std_next fuel (word_bits k) 1 (prime k)) n r;
  '(b, r) ← repeat_draw (uniform_sample std_next fuel (word_bits k) 0 (prime k)) n r;
  Some (Hasher a b n).
(** min_hasher.rs:31-40 / min_hasher64.rs:21-38 [new], [new_with_hasher]: seed 3. *)
Definition std_hasher_new (fuel : nat) (k : hasher_kind) (n : nat) : option hasher :=
  std_hasher fuel k n 3.

(** super_min_hash.rs:47-53: the shuffled list 0..m and then [m] draws from 0..1. *)
Definition v1_draws (fuel : nat) (seed : N) (m : nat) : option (list N * list f32) :=
  '(p, r) ← shuffle std_next fuel (N.of_nat <$> seq 0 m) (std_seed_from_u64 seed);
  '(us, r) ← repeat_draw (fun r => Some (unit_sample std_next r)) m r;
  Some (p, us).

(** super_min_hash.rs:103-107: round [j] draws from 0..1 and then from j..m. *)
Fixpoint v2_draws_from (fuel n m j : nat) (r : std_rng) : option (list (f32 * N)) :=
  match n with
  | O => Some []
  | S n' =>
      let '(u, r) := unit_sample std_next r in
      '(k, r) ← uniform_sample std_next fuel 64 (N.of_nat j) (N.of_nat m) r;
      rest ← v2_draws_from fuel n' m (S j) r;
      Some ((u, k) :: rest)
  end.
Definition v2_draws (fuel : nat) (seed : N) (m : nat) : option (list (f32 * N)) :=
  v2_draws_from fuel m m 0 (std_seed_from_u64 seed).

(** The arguments of SuperMinHash.v. Where the rounds are not enough they take a fixed value. *)
Definition std_shuffle (fuel : nat) (seed : N) (m : nat) : list N :=
  match v1_draws fuel seed m with Some (p, _) => p | None => N.of_nat <$> seq 0 m end.
Definition std_unit1 (fuel : nat) (seed : N) (m j : nat) : f32 :=
  match v1_draws fuel seed m with Some (_, us) => default (f32_of_N 0) (us !! j) | None => f32_of_N 0 end.
Definition std_unit2 (fuel : nat) (seed : N) (m j : nat) : f32 :=
  match v2_draws fuel seed m with Some l => default (f32_of_N 0) ((l !! j) ≫= fun d => Some d.1) | None => f32_of_N 0 end.
Definition std_pick (fuel : nat) (seed : N) (m j : nat) : nat :=
  match v2_draws fuel seed m with Some l => default j ((l !! j) ≫= fun d => Some (N.to_nat d.2)) | None => j end.
