(** Specification vocabulary for C80: SHA-1 as in FIPS 180-4 and SipHash-2-4 as in the paper of
    Aumasson and Bernstein (and their reference code for the 128-bit variant). *)
From stdpp Require Import base list.
From Coq Require Import NArith.
Local Open Scope N_scope.

(** Addition and rotation to the left of [W]-bit words. *)
Definition plus (W x y : N) : N := (x + y) mod 2 ^ W.
Definition turn (W x n : N) : N := (x * 2 ^ n) mod 2 ^ W + x / 2 ^ (W - n).

(** The number whose digits to the base 256 are [l], the least significant first (last). *)
Definition little (l : list N) : N := foldr (fun b n => b + 256 * n) 0 l.
Definition big (l : list N) : N := little (reverse l).

Definition is_bytes (l : list N) : Prop := Forall (fun b => b < 256) l.

(** ** SipHash *)

(** The rounds of the paper, on a state of four words. *)
Definition mix (s : N * N * N * N) : N * N * N * N :=
  let '(a, b, c, d) := s in
  let a1 := plus 64 a b in let c1 := plus 64 c d in
  let b1 := N.lxor (turn 64 b 13) a1 in let d1 := N.lxor (turn 64 d 16) c1 in
  let c2 := plus 64 c1 b1 in let a2 := plus 64 (turn 64 a1 32) d1 in
  (a2, N.lxor (turn 64 b1 17) c2, turn 64 c2 32, N.lxor (turn 64 d1 21) a2).

(** Compression of a word by two rounds. *)
Definition take_in (s : N * N * N * N) (m : N) : N * N * N * N :=
  let '(a, b, c, d) := s in
  let '(a, b, c, d) := Nat.iter 2 mix (a, b, c, N.lxor d m) in (N.lxor a m, b, c, d).

(** The bytes padded with zeros and their number (modulo 256) to whole words; the last word has
    the number in its most significant byte. Word [i] is made of bytes [8 i .. 8 i + 7]. *)
Definition sip_padded (msg : list N) : list N :=
  msg ++ replicate (7 - length msg mod 8) 0 ++ [N.of_nat (length msg) mod 256].
Definition sip_words (msg : list N) : list N :=
  (fun i => little (take 8 (drop (8 * i) (sip_padded msg)))) <$> seq 0 (length msg / 8 + 1).

Definition sip_key (key0 key1 : N) : N * N * N * N :=
  (N.lxor key0 8317987319222330741, N.lxor key1 7237128888997146477,
   N.lxor key0 7816392313619706465, N.lxor key1 8387220255154660723).
Definition flip2 (s : N * N * N * N) (m : N) : N * N * N * N := let '(a, b, c, d) := s in (a, N.lxor b m, c, d).
Definition flip3 (s : N * N * N * N) (m : N) : N * N * N * N := let '(a, b, c, d) := s in (a, b, N.lxor c m, d).
Definition out_word (s : N * N * N * N) : N := let '(a, b, c, d) := s in N.lxor a (N.lxor b (N.lxor c d)).

Definition siphash_2_4 (key0 key1 : N) (msg : list N) : N :=
  out_word (Nat.iter 4 mix (flip3 (foldl take_in (sip_key key0 key1) (sip_words msg)) 255)).
Definition siphash_2_4_128 (key0 key1 : N) (msg : list N) : N :=
  let s := Nat.iter 4 mix (flip3 (foldl take_in (flip2 (sip_key key0 key1) 238) (sip_words msg)) 238) in
  out_word s + 2 ^ 64 * out_word (Nat.iter 4 mix (flip2 s 221)).

(** ** SHA-1 *)

(** Padding: a one bit, as few zero bits as possible up to a multiple of 512 bits, and the number
    of bits as a 64-bit number. *)
Definition sha_padded (msg p : list N) : Prop :=
  exists k l, p = msg ++ [128] ++ replicate k 0 ++ l /\ (k < 64)%nat /\
    length l = 8%nat /\ is_bytes l /\ big l = (8 * N.of_nat (length msg)) mod 2 ^ 64 /\
    (length p mod 64 = 0)%nat.

(** The logical function and the constant of round [t]; [f] is given bit by bit. *)
Definition round_function (t : nat) (x y z f : N) : Prop :=
  f < 2 ^ 32 /\ forall i, i < 32 ->
    N.testbit f i =
      let a := N.testbit x i in let b := N.testbit y i in let c := N.testbit z i in
      if (t <? 20)%nat then (if a then b else c)
      else if ((40 <=? t) && (t <? 60))%nat then (a && b) || (a && c) || (b && c)
      else xorb a (xorb b c).
Definition round_constant (t : nat) : N :=
  if (t <? 20)%nat then 1518500249 else if (t <? 40)%nat then 1859775393
  else if (t <? 60)%nat then 2400959708 else 3395469782.

(** One block: [W] is the message schedule, [S t] the five working variables before round [t]. *)
Definition words5 : Type := N * N * N * N * N.
Definition sha_schedule (block : list N) (W : nat -> N) : Prop :=
  (forall t, (t < 16)%nat -> block !! t = Some (W t)) /\
  (forall t, (16 <= t < 80)%nat ->
     W t = turn 32 (N.lxor (W (t - 3)%nat) (N.lxor (W (t - 8)%nat) (N.lxor (W (t - 14)%nat) (W (t - 16)%nat)))) 1).
Definition sha_rounds (W : nat -> N) (S : nat -> words5) : Prop :=
  forall t, (t < 80)%nat -> exists a b c d e f, S t = (a, b, c, d, e) /\ round_function t b c d f /\
    S (t + 1)%nat = ((turn 32 a 5 + f + e + round_constant t + W t) mod 2 ^ 32, a, turn 32 b 30, c, d).
Definition sha_block (H : words5) (block : list N) (H' : words5) : Prop :=
  exists W S, sha_schedule block W /\ S 0%nat = H /\ sha_rounds W S /\
    let '(a, b, c, d, e) := H in let '(a', b', c', d', e') := S 80%nat in
    H' = (plus 32 a a', plus 32 b b', plus 32 c c', plus 32 d d', plus 32 e e').

(** Word [j] of block [i] of the padded message. *)
Definition sha_word (p : list N) (i j : nat) : N := big (take 4 (drop (64 * i + 4 * j) p)).

(** [d] is the digest of [msg]: the last of the hash values, its words in bytes. *)
Definition is_sha1 (msg d : list N) : Prop :=
  exists p (H : nat -> words5), sha_padded msg p /\
    H 0%nat = (1732584193, 4023233417, 2562383102, 271733878, 3285377520) /\
    (forall i, (i < length p / 64)%nat -> sha_block (H i) (sha_word p i <$> seq 0 16) (H (i + 1)%nat)) /\
    length d = 20%nat /\ is_bytes d /\
    H (length p / 64)%nat =
      (big (take 4 d), big (take 4 (drop 4 d)), big (take 4 (drop 8 d)), big (take 4 (drop 12 d)), big (drop 16 d)).
