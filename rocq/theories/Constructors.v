(** Model of the constructors of gaoya/src/minhash/minhash_index.rs with machine arithmetic: in
    builds with overflow checks an overflowing [usize] operation panics, in builds without them
    it wraps. Definitions only.

    [MinHashIndex.new_index] is the constructor with unbounded arithmetic. The unused field
    [len] of a band is not stored, but the subtraction that computes it is modelled. *)
From stdpp Require Import base list gmap.
From Coq Require Import NArith.
From Verif Require Import Base Float Similarity Container MinHashIndex.

Section Constructors.
(** The number of bits of [usize]. *)
Context (W : nat).
Context {T : Type}.
Context {Id : Type} `{Countable Id}.
Context (K : id_container Id).
(** Whether [HashMap::reserve] finds the given capacity representable; if not it panics with
    "capacity overflow". *)
Context (room : N -> bool).

(** [a + b] and [a * b] on [usize] with overflow checks. *)
Definition add_c (a b : nat) : res nat := if decide (a + b < 2 ^ W) then Ok (a + b) else Panic.
Definition mul_c (a b : nat) : res nat := if decide (a * b < 2 ^ W) then Ok (a * b) else Panic.

(** minhash_index.rs:116-127 [MinHashBand::new] and 129-143 [new_with_capacity]: the subtraction
    [band_end - band_start] panics below zero. *)
Definition band_new_c (s e : nat) : res (band (carrier K)) :=
  if decide (s <= e) then Ok (band_new K s e) else Panic.

(** minhash_index.rs:365-368 and 397-400: one turn of the loop over the bands. *)
Definition nth_band_c (band_width i : nat) : res (band (carrier K)) :=
  s ← mul_c i band_width;
  j ← add_c i 1;
  e ← mul_c j band_width;
  band_new_c s e.

(** minhash_index.rs:362-379 [new_index] with overflow checks; [new] (349-351) is the same call
    with HashSet containers. [reserve(1000)] is taken to succeed. *)
Definition new_index_c (num_bands band_width : nat) (th : f64) : res (index (carrier K) Id T) :=
  bs ← mapM (nth_band_c band_width) (seq 0 num_bands);
  n ← mul_c num_bands band_width;
  Ok (Index bs ∅ th band_width num_bands n).

(** The same text without overflow checks. *)
Definition new_index_u (num_bands band_width : nat) (th : f64) : index (carrier K) Id T :=
  Index ((fun i => band_new K (i * band_width mod 2 ^ W) (((i + 1) mod 2 ^ W) * band_width mod 2 ^ W))
           <$> seq 0 num_bands)
        ∅ th band_width num_bands (num_bands * band_width mod 2 ^ W).

(** minhash_index.rs:396:
    [(initial_capacity as f64 * (1.0 - expected_similarity_ratio)) as usize]. *)
Definition band_capacity (initial_capacity : N) (ratio : f64) : N :=
  f64_as_unsigned (2 ^ N.of_nat W - 1) (f64_mul (f64_of_N initial_capacity) (f64_sub f64_one ratio)).

(** minhash_index.rs:388-410 [new_with_capacity] with overflow checks. *)
Definition new_with_capacity_c (num_bands band_width : nat) (th : f64) (initial_capacity : N)
    (ratio : f64) : res (index (carrier K) Id T) :=
  bs ← mapM (fun i => s ← mul_c i band_width;
                      j ← add_c i 1;
                      e ← mul_c j band_width;
                      if room (band_capacity initial_capacity ratio) then band_new_c s e else Panic)
            (seq 0 num_bands);
  if room initial_capacity then
    n ← mul_c num_bands band_width;
    Ok (Index bs ∅ th band_width num_bands n)
  else Panic.
End Constructors.
