(** Specification vocabulary for the random numbers of the hashers (C78). *)
From stdpp Require Import base list.
From Coq Require Import NArith.
From Verif Require Import Float.

(** Of the words below [words], [f] turns exactly [share] into each number of [lo..hi] and none into
    any other number. *)
Definition fair (f : N -> option N) (words lo hi share : N) : Prop :=
  (forall v x, (v < words)%N -> f v = Some x -> (lo <= x < hi)%N) /\
  forall x, (lo <= x < hi)%N -> exists l : list N, NoDup l /\ N.of_nat (length l) = share /\
    forall v, v ∈ l <-> (v < words)%N /\ f v = Some x.

(** Exchanging two places of a list. *)
Definition exchange {A} (l : list A) (i k : nat) : list A :=
  match l !! i, l !! k with Some x, Some y => <[k := x]> (<[i := y]> l) | _, _ => l end.

(** Going down from place [i] to place 1, exchange each place with the next of the given places. *)
Fixpoint exchanges {A} (i : nat) (l : list A) (ks : list nat) : list A :=
  match i, ks with
  | S i', k :: ks' => exchanges i' (exchange l i k) ks'
  | _, _ => l
  end.

(** [ks] names, for each place from [i] down to 1, a place that is not above it. *)
Fixpoint downward (i : nat) (ks : list nat) : Prop :=
  match i, ks with
  | O, [] => True
  | S i', k :: ks' => k <= i /\ downward i' ks'
  | _, _ => False
  end.

(** *** The key stream (RFC 8439, sections 2.1-2.3, with a 64-bit counter and any number of rounds) *)
Local Open Scope N_scope.
Definition rotl (x n : N) : N := (x * 2 ^ n) mod 2 ^ 32 + x / 2 ^ (32 - n).

(** [Qround(a, b, c, d)] on a state of 16 words. *)
Definition step (s : list N) (x y z : nat) (n : N) : list N :=
  let s := <[x := (nth x s 0 + nth y s 0) mod 2 ^ 32]> s in
  <[z := rotl (N.lxor (nth z s 0) (nth x s 0)) n]> s.
Definition Qround (s : list N) (a b c d : nat) : list N :=
  step (step (step (step s a b d 16) c d b 12) a b d 8) c d b 7.
Definition inner_block (s : list N) : list N :=
  let s := Qround s 0 4 8 12 in
  let s := Qround s 1 5 9 13 in
  let s := Qround s 2 6 10 14 in
  let s := Qround s 3 7 11 15 in
  let s := Qround s 0 5 10 15 in
  let s := Qround s 1 6 11 12 in
  let s := Qround s 2 7 8 13 in
  Qround s 3 4 9 14.

(** "expand 32-byte k" in little-endian words, the key, the counter and the nonce 0. *)
Definition key_stream_block (rounds : nat) (key : list N) (counter : N) : list N :=
  let s := [1634760805; 857760878; 2036477234; 1797285236] ++ key ++
           [counter mod 2 ^ 32; counter / 2 ^ 32; 0; 0] in
  (fun i => (nth i (Nat.iter rounds inner_block s) 0 + nth i s 0) mod 2 ^ 32) <$> seq 0 16.

(** The words of the stream, block after block. *)
Definition key_stream (rounds : nat) (key : list N) (i : nat) : N :=
  nth (i mod 16) (key_stream_block rounds key (N.of_nat (i / 16))) 0.

(** *** The key from a 64-bit seed: PCG32 with a fixed stream *)
Definition pcg_states (seed : N) (i : nat) : N :=
  Nat.iter (S i) (fun s => (s * 6364136223846793005 + 11634580027462260723) mod 2 ^ 64) seed.
Definition pcg_word (seed : N) (i : nat) : N :=
  let s := pcg_states seed i in
  let x := N.lxor (s / 2 ^ 18) s / 2 ^ 27 mod 2 ^ 32 in
  (x / 2 ^ (s / 2 ^ 59) + x * 2 ^ (32 - s / 2 ^ 59) mod 2 ^ 32).
Definition key_of_seed (seed : N) : list N := pcg_word seed <$> seq 0 8.

(** *** Numbers from words *)
(** Words of 32 bits as they are, words of 64 bits from two of 32, the low half first. *)
Fixpoint pairs (ws : list N) : list N :=
  match ws with lo :: hi :: ws' => lo + hi * 2 ^ 32 :: pairs ws' | _ => [] end.
Definition wide (bits : N) (ws : list N) : list N := if bits =? 32 then ws else pairs ws.

(** A number of [low..high] from a word of [bits] bits; no number from the words that would make
    the shares unequal. *)
Definition accept (bits low high v : N) : option N :=
  let range := high - low in
  if v * range mod 2 ^ bits <? 2 ^ bits / range * range then Some (low + v * range / 2 ^ bits) else None.

(** The f32 quotient k / 2^23. *)
Definition unit_frac (k : N) : f32 := SFdiv 24 128 (f32_of_N k) (f32_of_N 8388608).

(** A number below [n] from a word of 32 bits, as [gen_range] makes it: with a power of two as the
    share. *)
Definition accept_index (n v : N) : option N :=
  if v * n mod 2 ^ 32 <? 2 ^ (32 - N.size n) * n then Some (v * n / 2 ^ 32) else None.

(** The words used for the places [n], ..., 1 of a shuffle and the places chosen with them. *)
Fixpoint choices (n : nat) (chunks : list (list N)) (ks : list nat) : Prop :=
  match n, chunks, ks with
  | O, [], [] => True
  | S n', c :: cs, k :: ks' => omap (accept_index (N.of_nat (S n))) c = [N.of_nat k] /\ choices n' cs ks'
  | _, _, _ => False
  end.

(** The words used for the rounds [j], [j + 1], ... of the second SuperMinHash and the numbers
    drawn: one word for a number of 0..1, then words for a number of j..m. *)
Fixpoint rounds (m j : nat) (chunks : list (list N)) (draws : list (f32 * N)) : Prop :=
  match chunks, draws with
  | [], [] => True
  | (w :: ws) :: cs, (u, k) :: ds =>
      u = unit_frac (w / 512) /\ omap (accept 64 (N.of_nat j) (N.of_nat m)) (wide 64 ws) = [k] /\ rounds m (S j) cs ds
  | _, _ => False
  end.
