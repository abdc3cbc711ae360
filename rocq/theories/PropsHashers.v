(** Property theorem C63: the token hashers and the extraction of leading bits. *)
From stdpp Require Import base list.
From Coq Require Import NArith ZArith Lia.
From Verif Require Import Base SimHashBits Hashers HashersFacts.
Local Open Scope N_scope.

(** A SHA-1 digest: 20 bytes. *)
Definition is_digest (d : list N) : Prop := length d = 20%nat /\ Forall (fun b => b < 256) d.

Section Hashers.
Context (sha1 : list N -> list N) (sip sip128 : N -> N -> list N -> N).
Context (Hsha : forall l, is_digest (sha1 l)).

Lemma finish_eq s : sha1_finish sha1 s = Some (from_be_bytes (take 8 (sha1 (sha_bytes s)))).
Proof.
  destruct (Hsha (sha_bytes s)) as [Hl _]. unfold sha1_finish, slice. rewrite Hl. done.
Qed.

Lemma prefix_ok l : length (take 8 (sha1 l)) = 8%nat /\ Forall (fun b => b < 256) (take 8 (sha1 l)).
Proof. destruct (Hsha l) as [Hl Hb]. split; [rewrite take_length; lia|by apply Forall_take]. Qed.

(** The hash is the 64-bit number whose bytes, most significant first, are the first eight of the
    digest of everything written. *)
Theorem C63_sha_value (writes : list (list N)) : exists v,
  sha_hasher64_hash sha1 writes = Some v /\ v < 2 ^ 64 /\
  forall j b, (j < 8)%nat -> sha1 (concat writes) !! j = Some b -> (v / 2 ^ (8 * N.of_nat (7 - j))) mod 256 = b.
Proof.
  unfold sha_hasher64_hash. rewrite finish_eq, writes_concat. cbn [sha_bytes sha1_new app].
  eexists; split; [done|]. destruct (prefix_ok (concat writes)) as [Hl Hb]. split.
  - pose proof (from_be_bound _ Hb) as H. rewrite Hl in H. exact H.
  - intros j b Hj Hd. rewrite N.pow_mul_r. change (2 ^ 8) with 256.
    pose proof (from_be_digit (take 8 (sha1 (concat writes))) j b Hb) as H. rewrite Hl in H.
    change (8 - 1)%nat with 7%nat in H. apply H. by rewrite lookup_take.
Qed.

(** How the bytes of a token are cut into writes does not matter, for any of the hashers. *)
Theorem C63_writes (writes writes' : list (list N)) key1 key2 : concat writes = concat writes' ->
  sha_hasher64_hash sha1 writes = sha_hasher64_hash sha1 writes' /\
  sip_hasher64_hash sip key1 key2 writes = sip_hasher64_hash sip key1 key2 writes' /\
  sip_hasher128_hash sip128 key1 key2 writes = sip_hasher128_hash sip128 key1 key2 writes'.
Proof.
  intros E. unfold sha_hasher64_hash, sip_hasher64_hash, sip_hasher128_hash.
  rewrite !finish_eq, !writes_concat, E. done.
Qed.

(** Two tokens have the same hash exactly if their digests agree in the first eight bytes. *)
Theorem C63_sha_collide (writes writes' : list (list N)) :
  sha_hasher64_hash sha1 writes = sha_hasher64_hash sha1 writes' <->
  forall j, (j < 8)%nat -> sha1 (concat writes) !! j = sha1 (concat writes') !! j.
Proof.
  unfold sha_hasher64_hash. rewrite !finish_eq, !writes_concat. cbn [sha_bytes sha1_new app].
  destruct (prefix_ok (concat writes)) as [Hl Hb]. destruct (prefix_ok (concat writes')) as [Hl' Hb'].
  split.
  - intros E. injection E as E. apply from_be_inj in E; [|congruence|done|done].
    intros j Hj. rewrite <- (lookup_take (sha1 (concat writes)) 8 j) by done. by rewrite E, lookup_take.
  - intros E. do 2 f_equal. apply list_eq. intros j. destruct (decide (j < 8)%nat).
    + rewrite !lookup_take by done. by apply E.
    + rewrite !lookup_take_ge by lia. done.
Qed.

(** [finish] leaves the hasher as it was: writing on gives the hash of all the bytes. *)
Theorem C63_sha_continue (s : sha1_hasher) (a b : list N) :
  sha1_finish sha1 (sha1_write (sha1_write s a) b) = sha1_finish sha1 (sha1_write s (a ++ b)) /\
  sha1_finish sha1 (sha1_write s []) = sha1_finish sha1 s.
Proof. rewrite !finish_eq. cbn. by rewrite app_assoc, app_nil_r. Qed.
End Hashers.

(** A stand-in for the digest. *)
Definition c63_sha (l : list N) : list N := map (fun i => (N.of_nat i * 37 + foldl N.add 0 l) mod 256) (seq 0 20).
Lemma c63_sha_digest l : is_digest (c63_sha l).
Proof.
  split; [unfold c63_sha; by rewrite map_length, seq_length|]. unfold c63_sha. apply Forall_forall.
  intros x Hx. apply elem_of_list_In, in_map_iff in Hx as (i & <- & _). by apply N.mod_lt.
Qed.
Example C63_example :
  c63_sha [1; 2; 3] = [6; 43; 80; 117; 154; 191; 228; 9; 46; 83; 120; 157; 194; 231; 12; 49; 86; 123; 160; 197] /\
  sha_hasher64_hash c63_sha [[1; 2]; [3]] = Some 444537454263788553 /\
  sha_hasher64_hash c63_sha [[1]; []; [2; 3]] = Some 444537454263788553 /\
  sha_hasher64_hash c63_sha [[1; 2]; [4]] = Some 516877627101865226 /\
  concat [[1; 2]; [3]] = concat [[1]; []; [2; 3]].
Proof. vm_compute. split_and!; reflexivity. Qed.
Print Assumptions C63_sha_value.
Print Assumptions C63_writes.
Print Assumptions C63_sha_collide.
Print Assumptions C63_sha_continue.

(** The leading 32 (64) bits of a 64- or 128-bit fingerprint; larger fingerprints have larger
    leading bits. *)
Theorem C63_high_bits (W : nat) (x : N) : W = 64%nat \/ W = 128%nat -> x < 2 ^ N.of_nat W ->
  (exists y, to_u32_high_bits W x = Some y /\ y < 2 ^ 32 /\
     y * 2 ^ N.of_nat (W - 32) <= x < (y + 1) * 2 ^ N.of_nat (W - 32)) /\
  (exists y, to_u64_high_bits W x = Some y /\ y < 2 ^ 64 /\
     y * 2 ^ N.of_nat (W - 64) <= x < (y + 1) * 2 ^ N.of_nat (W - 64)).
Proof.
  intros HW Hx. unfold to_u32_high_bits, to_u64_high_bits. split.
  - destruct (high_bits W 32 x) as (y & E & Hm & Hy & Hr); [lia|lia|done|]. exists y. rewrite E. cbn [mbind option_bind].
    change (N.of_nat 32) with 32 in *. rewrite Hm. done.
  - destruct (high_bits W 64 x) as (y & E & Hm & Hy & Hr); [lia|lia|done|]. exists y. rewrite E. cbn [mbind option_bind].
    change (N.of_nat 64) with 64 in *. rewrite Hm. done.
Qed.
Example C63_high_bits_example :
  to_u32_high_bits 64 81985529216486895 = Some 19088743 /\ to_u64_high_bits 64 81985529216486895 = Some 81985529216486895 /\
  to_u32_high_bits 128 (2 ^ 127 + 5) = Some (2 ^ 31) /\ to_u64_high_bits 128 (2 ^ 127 + 2 ^ 63) = Some (2 ^ 63) /\
  81985529216486895 < 2 ^ 64.
Proof. vm_compute. split_and!; reflexivity. Qed.
Print Assumptions C63_high_bits.
