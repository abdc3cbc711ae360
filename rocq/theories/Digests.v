(** Model of the hash functions behind gaoya/src/minhash/hashers.rs and
    gaoya/src/simhash/sim_hasher.rs: SHA-1 (crate sha-1 0.10) and SipHash-2-4 (crate siphasher
    0.3: sip.rs and sip128.rs). Definitions only.

    Bytes are numbers below 256, [u32] and [u64] numbers below 2^32 and 2^64. The code of the
    crates is not in the repository; it is modelled from their published sources, without the
    vectorised versions. PropsDigests.v compares with published test vectors. *)
From stdpp Require Import base list.
From Coq Require Import NArith.
From Verif Require Import Base.
Local Open Scope N_scope.

(** [wrapping_add] and [rotate_left] of [W]-bit numbers, for amounts below [W]. *)
Definition add_w (W x y : N) : N := (x + y) mod 2 ^ W.
Definition rot_w (W x n : N) : N := N.lor (N.shiftl x n mod 2 ^ W) (N.shiftr x (W - n)).

(** Pieces of [n] elements; a shorter rest is dropped ([chunks_exact]). *)
Fixpoint pieces {A} (fuel n : nat) (l : list A) : list (list A) :=
  match fuel with
  | O => []
  | S fuel' => if (n <=? length l)%nat then take n l :: pieces fuel' n (drop n l) else []
  end.

(** ** SHA-1 *)

(** [to_be_bytes] of [n] bytes. *)
Fixpoint be_bytes (n : nat) (x : N) : list N :=
  match n with O => [] | S n' => be_bytes n' (x / 256) ++ [x mod 256] end.
(** [from_be_bytes]. *)
Definition be_number (l : list N) : N := foldl (fun acc b => acc * 256 + b) 0 l.

(** [finalize]: the byte 128, zeros up to 8 bytes before the end of a block, the number of bits. *)
Definition sha_pad (msg : list N) : list N :=
  msg ++ [128] ++ replicate ((119 - length msg mod 64) mod 64) 0 ++ be_bytes 8 (8 * N.of_nat (length msg) mod 2 ^ 64).

(** The message schedule; [w] holds the last 16 words. *)
Fixpoint sha_expand (n : nat) (w : list N) : list N :=
  match n with
  | O => []
  | S n' =>
      let x := rot_w 32 (N.lxor (N.lxor (nth 13 w 0) (nth 8 w 0)) (N.lxor (nth 2 w 0) (nth 0 w 0))) 1 in
      x :: sha_expand n' (tail w ++ [x])
  end.

(** Rounds 0-19, 20-39, 40-59, 60-79. *)
Definition not32 (x : N) : N := 2 ^ 32 - 1 - x.
Definition sha_choose (b c d : N) : N := N.lxor (N.land b c) (N.land (not32 b) d).
Definition sha_parity (b c d : N) : N := N.lxor (N.lxor b c) d.
Definition sha_majority (b c d : N) : N := N.lxor (N.lxor (N.land b c) (N.land b d)) (N.land c d).
Definition sha_round (f : N -> N -> N -> N) (k : N) (s : N * N * N * N * N) (w : N) : N * N * N * N * N :=
  let '(a, b, c, d, e) := s in
  (add_w 32 (add_w 32 (add_w 32 (add_w 32 (rot_w 32 a 5) (f b c d)) e) k) w, a, rot_w 32 b 30, c, d).

(** [compress] of one block of 16 words. *)
Definition sha_compress (s : N * N * N * N * N) (block : list N) : N * N * N * N * N :=
  let w := block ++ sha_expand 64 block in
  let s1 := foldl (sha_round sha_choose 1518500249) s (take 20 w) in
  let s2 := foldl (sha_round sha_parity 1859775393) s1 (take 20 (drop 20 w)) in
  let s3 := foldl (sha_round sha_majority 2400959708) s2 (take 20 (drop 40 w)) in
  let s4 := foldl (sha_round sha_parity 3395469782) s3 (take 20 (drop 60 w)) in
  let '(a, b, c, d, e) := s in
  let '(a', b', c', d', e') := s4 in
  (add_w 32 a a', add_w 32 b b', add_w 32 c c', add_w 32 d d', add_w 32 e e').

(** [Sha1::new()], [write(msg)], [finalize()]. *)
Definition sha_start : N * N * N * N * N := (1732584193, 4023233417, 2562383102, 271733878, 3285377520).
Definition sha1 (msg : list N) : list N :=
  let padded := sha_pad msg in
  let words := be_number <$> pieces (length padded) 4 padded in
  let '(a, b, c, d, e) := foldl sha_compress sha_start (pieces (length words) 16 words) in
  be_bytes 4 a ++ be_bytes 4 b ++ be_bytes 4 c ++ be_bytes 4 d ++ be_bytes 4 e.

(** ** SipHash *)

(** sip.rs [State], the macro [compress!] (one round) and [Sip24Rounds]. *)
Record sip_state := SipState { v0 : N; v1 : N; v2 : N; v3 : N }.
Definition sip_round (s : sip_state) : sip_state :=
  let '(SipState v0 v1 v2 v3) := s in
  let v0 := add_w 64 v0 v1 in let v1 := rot_w 64 v1 13 in let v1 := N.lxor v1 v0 in let v0 := rot_w 64 v0 32 in
  let v2 := add_w 64 v2 v3 in let v3 := rot_w 64 v3 16 in let v3 := N.lxor v3 v2 in
  let v0 := add_w 64 v0 v3 in let v3 := rot_w 64 v3 21 in let v3 := N.lxor v3 v0 in
  let v2 := add_w 64 v2 v1 in let v1 := rot_w 64 v1 17 in let v1 := N.lxor v1 v2 in let v2 := rot_w 64 v2 32 in
  SipState v0 v1 v2 v3.
Definition c_rounds (s : sip_state) : sip_state := sip_round (sip_round s).
Definition d_rounds (s : sip_state) : sip_state := sip_round (sip_round (sip_round (sip_round s))).

(** sip.rs [Hasher]: the keys are only used by [reset]; [tail] holds [ntail] bytes. *)
Record sip_hasher := SipHasher { sip_length : nat; sip_st : sip_state; sip_tail : N; sip_ntail : nat }.

(** [new_with_keys] and [reset]; in sip128.rs [v1 ^= 0xee] follows. *)
Definition sip_start (key0 key1 : N) : sip_state :=
  SipState (N.lxor key0 8317987319222330741) (N.lxor key1 7237128888997146477)
    (N.lxor key0 7816392313619706465) (N.lxor key1 8387220255154660723).
Definition sip_new (wide : bool) (key0 key1 : N) : sip_hasher :=
  let s := sip_start key0 key1 in
  SipHasher 0 (if wide then SipState (v0 s) (N.lxor (v1 s) 238) (v2 s) (v3 s) else s) 0 0.

(** [v3 ^= m; c_rounds; v0 ^= m]. *)
Definition sip_absorb (s : sip_state) (m : N) : sip_state :=
  let s := c_rounds (SipState (v0 s) (v1 s) (v2 s) (N.lxor (v3 s) m)) in
  SipState (N.lxor (v0 s) m) (v1 s) (v2 s) (v3 s).

(** [u8to64_le]. *)
Fixpoint le_number (l : list N) : N := match l with [] => 0 | b :: l' => b + 256 * le_number l' end.

(** [Hasher::write]: fills the tail, absorbs it when full, then whole words, and keeps the rest.
    The loop runs while [i < len - left]. *)
Fixpoint sip_loop (fuel : nat) (msg : list N) (i bound : nat) (s : sip_state) : sip_state * nat :=
  match fuel with
  | O => (s, i)
  | S fuel' =>
      if (i <? bound)%nat then sip_loop fuel' msg (i + 8) bound (sip_absorb s (le_number (take 8 (drop i msg))))
      else (s, i)
  end.
Definition sip_flushed (len needed : nat) (msg : list N) (total : nat) (s : sip_state) : sip_hasher :=
  let len' := (len - needed)%nat in
  let left := (len' mod 8)%nat in
  let '(s, i) := sip_loop len msg needed (len' - left) s in
  SipHasher total s (le_number (take left (drop i msg))) left.
Definition sip_write (h : sip_hasher) (msg : list N) : sip_hasher :=
  let len := length msg in
  let total := (sip_length h + len)%nat in
  if (sip_ntail h =? 0)%nat then sip_flushed len 0 msg total (sip_st h)
  else
    let needed := (8 - sip_ntail h)%nat in
    let tail := N.lor (sip_tail h) (N.shiftl (le_number (take (Nat.min len needed) msg)) (8 * N.of_nat (sip_ntail h))) in
    if (len <? needed)%nat then SipHasher total (sip_st h) tail (sip_ntail h + len)
    else sip_flushed len needed msg total (sip_absorb (sip_st h) tail).

(** [write_u8], by [short_write] for a value of one byte. *)
Definition sip_write_u8 (h : sip_hasher) (x : N) : sip_hasher :=
  let needed := (8 - sip_ntail h)%nat in
  let tail := N.lor (sip_tail h) (N.shiftl x (8 * N.of_nat (sip_ntail h))) in
  if (1 <? needed)%nat then SipHasher (sip_length h + 1) (sip_st h) tail (sip_ntail h + 1)
  else SipHasher (sip_length h + 1) (sip_absorb (sip_st h) tail) (N.shiftr x (8 * N.of_nat needed)) (1 - needed).

(** One call of a [Hash] implementation: [write] of some bytes or [write_u8]. *)
Definition sip_feed (h : sip_hasher) (c : list N + N) : sip_hasher :=
  match c with inl msg => sip_write h msg | inr x => sip_write_u8 h x end.

(** [finish] of sip.rs and [finish128] of sip128.rs with [as_u128]. *)
Definition sip_last (h : sip_hasher) : sip_state :=
  sip_absorb (sip_st h) (N.lor (N.shiftl (N.of_nat (sip_length h) mod 256) 56) (sip_tail h)).
Definition sip_fold (s : sip_state) : N := N.lxor (N.lxor (N.lxor (v0 s) (v1 s)) (v2 s)) (v3 s).
Definition sip_finish (h : sip_hasher) : N :=
  let s := sip_last h in
  sip_fold (d_rounds (SipState (v0 s) (v1 s) (N.lxor (v2 s) 255) (v3 s))).
Definition sip_finish128 (h : sip_hasher) : N :=
  let s := sip_last h in
  let s := d_rounds (SipState (v0 s) (v1 s) (N.lxor (v2 s) 238) (v3 s)) in
  let h1 := sip_fold s in
  let s := d_rounds (SipState (v0 s) (N.lxor (v1 s) 221) (v2 s) (v3 s)) in
  N.lor h1 (N.shiftl (sip_fold s) 64).

(** Hashing the bytes a token writes. *)
Definition sip64 (key1 key2 : N) (msg : list N) : N := sip_finish (sip_write (sip_new false key1 key2) msg).
Definition sip128 (key1 key2 : N) (msg : list N) : N := sip_finish128 (sip_write (sip_new true key1 key2) msg).
