(** Property theorem C80: the digests behind the token hashers, SHA-1 and SipHash-2-4, and the unit
    tests of the simhash that use them. *)
From stdpp Require Import base list.
From Coq Require Import NArith Ascii String Lia.
From Verif Require Import Base SimHashBits SimHash Hashers HashersFacts PropsHashers Text.
From Verif Require Import Digests SpecDigests SipFacts ShaFacts.
Local Open Scope N_scope.
Local Open Scope string_scope.
Local Open Scope list_scope.

Definition letters (s : string) : list N := N_of_ascii <$> list_ascii_of_string s.

(** ** SHA-1 *)

(** The model computes the one digest that FIPS 180-4 allows. *)
Theorem C80_sha1 (msg d : list N) : is_bytes msg -> is_sha1 msg d <-> d = sha1 msg.
Proof. exact (sha1_spec msg d). Qed.

(** Published digests: of "abc", of nothing, and of a message that needs a second block for its
    padding. *)
Example C80_sha1_example :
  is_bytes (letters "abc") /\
  be_number (sha1 (letters "abc")) = 968236873715988614170569073515315707566766479517 /\
  be_number (sha1 []) = 1245845410931227995499360226027473197403882391305 /\
  be_number (sha1 (letters "abcdbcdecdefdefgefghfghighijhijkijkljklmklmnlmnomnopnopq")) =
    756981919157381189150916787291668349464288325873 /\
  length (sha_pad (letters "abcdbcdecdefdefgefghfghighijhijkijkljklmklmnlmnomnopnopq")) = 128%nat.
Proof. split; [repeat constructor|]. vm_compute. split_and!; reflexivity. Qed.
Print Assumptions C80_sha1.

(** [ShaHasher64] never panics, and hashes to the first eight bytes of that digest. *)
Theorem C80_sha_hasher (writes : list (list N)) : Forall is_bytes writes ->
  exists d, is_sha1 (concat writes) d /\ sha_hasher64_hash sha1 writes = Ok (big (take 8 d)) /\ big (take 8 d) < 2 ^ 64.
Proof.
  intros Hw. assert (Hb : is_bytes (concat writes)) by (apply Forall_concat; eapply Forall_impl; [exact Hw|done]).
  exists (sha1 (concat writes)). pose proof (proj2 (sha1_spec (concat writes) _ Hb) eq_refl) as Hs.
  split; [exact Hs|]. destruct Hs as (_ & _ & _ & _ & _ & Hl & Hd & _).
  unfold sha_hasher64_hash, sha1_finish. rewrite writes_concat. cbn [sha_bytes sha1_new app].
  unfold slice. rewrite Hl. split.
  - rewrite decide_True by lia. rewrite drop_0. cbn [mbind option_bind]. f_equal. exact (be_big _).
  - pose proof (big_lt (take 8 (sha1 (concat writes))) (is_bytes_take _ _ Hd)) as H. rewrite take_length, Hl in H. exact H.
Qed.
Example C80_sha_hasher_example :
  sha_hasher64_hash sha1 [letters "a"; letters "bc"] = Ok (N.shiftr 968236873715988614170569073515315707566766479517 96).
Proof. vm_compute. reflexivity. Qed.
Print Assumptions C80_sha_hasher.

(** ** SipHash *)

(** However the bytes arrive, in pieces of any length or one by one, the streaming hasher returns
    the SipHash-2-4 of all of them. *)
Theorem C80_sip (key0 key1 : N) (calls : list (list N + N)) :
  key0 < 2 ^ 64 -> key1 < 2 ^ 64 -> Forall (fun c => is_bytes (call_bytes c)) calls ->
  sip_finish (foldl sip_feed (sip_new false key0 key1) calls) = siphash_2_4 key0 key1 (concat (call_bytes <$> calls)) /\
  siphash_2_4 key0 key1 (concat (call_bytes <$> calls)) < 2 ^ 64.
Proof. exact (calls64 key0 key1 calls). Qed.
Print Assumptions C80_sip.

Theorem C80_sip128 (key0 key1 : N) (calls : list (list N + N)) :
  key0 < 2 ^ 64 -> key1 < 2 ^ 64 -> Forall (fun c => is_bytes (call_bytes c)) calls ->
  sip_finish128 (foldl sip_feed (sip_new true key0 key1) calls) = siphash_2_4_128 key0 key1 (concat (call_bytes <$> calls)) /\
  siphash_2_4_128 key0 key1 (concat (call_bytes <$> calls)) < 2 ^ 128.
Proof. exact (calls128 key0 key1 calls). Qed.
Print Assumptions C80_sip128.

(** The test vectors of the reference implementation, with the key 00 01 .. 0f: of the bytes
    00 .. 0e in the 64-bit variant, of no bytes in the 128-bit variant. *)
Definition key_low : N := 506097522914230528.
Definition key_high : N := 1084818905618843912.
Example C80_sip_example :
  le_number (map N.of_nat (seq 0 8)) = key_low /\ le_number (map N.of_nat (seq 8 8)) = key_high /\
  siphash_2_4 key_low key_high (map N.of_nat (seq 0 15)) = 11613035633349379557 /\
  sip_finish (foldl sip_feed (sip_new false key_low key_high)
    [inr 0; inl [1; 2; 3]; inl []; inl [4; 5; 6; 7; 8; 9; 10; 11; 12; 13]; inr 14]) = 11613035633349379557 /\
  siphash_2_4_128 key_low key_high [] = 195408639751649035172039350458630767011 /\
  sip_finish128 (sip_new true key_low key_high) = 195408639751649035172039350458630767011.
Proof. vm_compute. split_and!; reflexivity. Qed.

(** What [SimSipHasher64] and [SimSipHasher128] return: the first key is the lower half. *)
Theorem C80_sip_hashers (key1 key2 : N) (writes : list (list N)) : key1 < 2 ^ 64 -> key2 < 2 ^ 64 -> Forall is_bytes writes ->
  sip_hasher64_hash sip64 key1 key2 writes = siphash_2_4 key1 key2 (concat writes) /\
  sip_hasher128_hash sip128 key1 key2 writes = siphash_2_4_128 key1 key2 (concat writes) /\
  sip_hasher64_hash sip64 key1 key2 writes < 2 ^ 64 /\ sip_hasher128_hash sip128 key1 key2 writes < 2 ^ 128.
Proof.
  intros H1 H2 Hw. assert (Hb : is_bytes (concat writes)) by (apply Forall_concat; eapply Forall_impl; [exact Hw|done]).
  unfold sip_hasher64_hash, sip_hasher128_hash.
  destruct (sip64_value key1 key2 _ H1 H2 Hb) as [-> L1]. destruct (sip128_value key1 key2 _ H1 H2 Hb) as [-> L2]. done.
Qed.
(** The two keys do not play the same part. *)
Example C80_sip_hashers_example :
  Forall is_bytes [letters "gaoya"; [255]] /\
  sip_hasher64_hash sip64 1 2 [letters "gaoya"; [255]] <> sip_hasher64_hash sip64 2 1 [letters "gaoya"; [255]] /\
  sip_hasher128_hash sip128 1 2 [letters "gaoya"; [255]] <> sip_hasher128_hash sip128 2 1 [letters "gaoya"; [255]].
Proof. split; [repeat constructor|]. vm_compute. split; discriminate. Qed.
Print Assumptions C80_sip_hashers.

(** ** The unit tests sim_hash.rs:96-111 *)
Definition text1 : string :=
  "SimHash is a technique used for detecting near-duplicates or for locality sensitive hashing. It was developed by Moses Charikar and is often used in large-scale applications to reduce the dimensionality of high-dimensional data, making it easier to process".
Definition text2 : string :=
  "SimHash is a technique used for detecting near-duplicates or for locality sensitive hashing. It was developed by Moses Charikar and is often utilized in large-scale applications to reduce the dimensionality of high-dimensional data, making it easier to analyze".
(** [str] writes its bytes and a byte 255. *)
Definition str_writes (token : list N) : list (list N) := [token; [255]].
Definition sha_token (token : list N) : N := default 0 (sha_hasher64_hash sha1 (str_writes token)).
Definition sip_token (token : list N) : N := sip_hasher128_hash sip128 1 2 (str_writes token).

Theorem C80_test_basics : exists s1 s2,
  create_signature 64 64 sha_token (whitespace_split (letters text1)) = Ok s1 /\
  create_signature 64 64 sha_token (whitespace_split (letters text2)) = Ok s2 /\
  hamming_distance s1 s2 = 7%nat.
Proof.
  exists 1443640261931754176, 1445047636813169536.
  split; [vm_compute; reflexivity|]. split; vm_compute; reflexivity.
Qed.
Print Assumptions C80_test_basics.

Theorem C80_test_basics128 : exists s1 s2,
  create_signature 128 128 sip_token (whitespace_split (letters text1)) = Ok s1 /\
  create_signature 128 128 sip_token (whitespace_split (letters text2)) = Ok s2 /\
  hamming_distance s1 s2 = 12%nat.
Proof.
  exists 51090035590733201102609254849440127853, 51754690154218588201332129415612078957.
  split; [vm_compute; reflexivity|]. split; vm_compute; reflexivity.
Qed.
Print Assumptions C80_test_basics128.
