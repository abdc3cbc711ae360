(** Property C74: the default token hash. *)
From stdpp Require Import base list.
From Coq Require Import NArith ZArith Lia.
From Verif Require Import Base Float Similarity MinHasher SpecMinHash MinHasherFacts PropsMinHasher Fnv SpecFnv FnvFacts.
Local Open Scope N_scope.

Lemma write_fnv1a l : fnv1a_64 l (fnv_write fnv_default l).
Proof.
  induction l as [|b l IH] using rev_ind; [constructor|]. rewrite write_snoc. by constructor.
Qed.
Lemma hash_low w t t' : (8 <= w <= 40)%Z ->
  low w (hash_str t) = low w (hash_str t') <-> low w (fnv_write fnv_default t) = low w (fnv_write fnv_default t').
Proof. intros Hw. apply (low_suffix w Hw). by repeat constructor. Qed.
Lemma default_lt l : fnv_write fnv_default l < 2 ^ 64.
Proof. by apply write_lt. Qed.

(** Lengths 1 to 4 with 40 bits, 0 to 3 with 32 bits. *)
Lemma check_40 : forallb (fun a => forallb (fun b => apart 40 376614327675 fnv_default a b) (seq 1 (a - 1))) (seq 1 (5 - 1)) = true.
Proof. vm_compute. reflexivity. Qed.
Lemma check_32 : forallb (fun a => forallb (fun b => apart 32 2952172923 fnv_default a b) (seq 0 (a - 0))) (seq 0 (4 - 0)) = true.
Proof. vm_compute. reflexivity. Qed.

(** The hash of a string token is the FNV-1a hash of its bytes and a byte 255. *)
Theorem C74_value (token : list N) : fnv1a_64 (token ++ [255]) (hash_str token) /\ hash_str token < 2 ^ 64.
Proof.
  split; [|apply byte_lt]. pose proof (write_fnv1a (token ++ [255])) as H. by rewrite write_app in H.
Qed.
(** The published value of "foobar", and the hash of the token. *)
Example C74_value_example : let foobar := [102; 111; 111; 98; 97; 114] in
  fnv_write fnv_default foobar = 9625390261332436968 /\ hash_str foobar = 3770159019072302101 /\
  hash_str [] = 12638352127299873646.
Proof. vm_compute. split_and!; reflexivity. Qed.
Print Assumptions C74_value.

(** The same ending neither makes nor hides a collision, with all bits ... *)
Theorem C74_ending (u v s : list N) : byte_string s ->
  hash_str (u ++ s) = hash_str (v ++ s) <-> hash_str u = hash_str v.
Proof.
  intros Hs. assert (H255 : bytes [255]) by (by repeat constructor). unfold hash_str. rewrite !write_app.
  rewrite (write_suffix _ _ [255]), (write_suffix _ _ s), (write_suffix _ _ [255]) by auto using write_lt, default_lt. done.
Qed.
(** ... and with the low 32 bits, the ones the 32, 16 and 8 bit hashers use. *)
Theorem C74_ending_32 (u v s : list N) : byte_string s ->
  hash_str (u ++ s) mod 2 ^ 32 = hash_str (v ++ s) mod 2 ^ 32 <-> hash_str u mod 2 ^ 32 = hash_str v mod 2 ^ 32.
Proof.
  intros Hs. pose proof (low_eq 32 (hash_str (u ++ s)) (hash_str (v ++ s)) ltac:(lia)) as <-.
  pose proof (low_eq 32 (hash_str u) (hash_str v) ltac:(lia)) as <-.
  rewrite !hash_low, !write_app by lia. by apply low_suffix.
Qed.

(** Tokens that differ within four consecutive bytes only do not collide ... *)
Theorem C74_window (p u v s : list N) : byte_string u -> byte_string v -> byte_string s ->
  length u = length v -> (length u <= 4)%nat ->
  hash_str (p ++ u ++ s) = hash_str (p ++ v ++ s) -> u = v.
Proof.
  intros Hu Hv Hs Hl Hn E. apply (f_equal (low 40)) in E.
  rewrite hash_low, !write_app, low_suffix in E by (done || lia).
  by apply (same_length 40 ltac:(lia) (fnv_write fnv_default p) 4 ltac:(reflexivity)) in E.
Qed.
(** ... within three bytes, not even in the low 32 bits. *)
Theorem C74_window_32 (p u v s : list N) : byte_string u -> byte_string v -> byte_string s ->
  length u = length v -> (length u <= 3)%nat ->
  hash_str (p ++ u ++ s) mod 2 ^ 32 = hash_str (p ++ v ++ s) mod 2 ^ 32 -> u = v.
Proof.
  intros Hu Hv Hs Hl Hn E. apply (low_eq 32 (hash_str _) (hash_str _) ltac:(lia)) in E.
  rewrite hash_low, !write_app, low_suffix in E by (done || lia).
  by apply (same_length 32 ltac:(lia) (fnv_write fnv_default p) 3 ltac:(reflexivity)) in E.
Qed.

(** Tokens of one to four bytes do not collide ... *)
Theorem C74_short (t t' : list N) : byte_string t -> byte_string t' ->
  (1 <= length t <= 4)%nat -> (1 <= length t' <= 4)%nat -> hash_str t = hash_str t' -> t = t'.
Proof.
  intros Ht Ht' Hl Hl' E. apply (f_equal (low 40)) in E. rewrite hash_low in E by lia.
  exact (inj_of fnv_default 40 376614327675 1 4 ltac:(lia) eq_refl eq_refl check_40 t t' Ht Ht' Hl Hl' E).
Qed.
(** ... of up to three bytes, not even in the low 32 bits. *)
Theorem C74_short_32 (t t' : list N) : byte_string t -> byte_string t' ->
  (length t <= 3)%nat -> (length t' <= 3)%nat -> hash_str t mod 2 ^ 32 = hash_str t' mod 2 ^ 32 -> t = t'.
Proof.
  intros Ht Ht' Hl Hl' E. apply (low_eq 32 (hash_str _) (hash_str _) ltac:(lia)) in E. rewrite hash_low in E by lia.
  exact (inj_of fnv_default 32 2952172923 0 3 ltac:(lia) eq_refl eq_refl check_32 t t' Ht Ht' ltac:(lia) ltac:(lia) E).
Qed.

(** "ab", "ac" and "abc"; and two long tokens. *)
Example C74_short_example : let p := [116; 111; 107; 101; 110; 45] in
  let l := [[97; 98]; [97; 99]; [97; 98; 99]; p ++ [49; 50; 51] ++ [33]; p ++ [51; 49; 50] ++ [33]] in
  Forall byte_string l /\ ((fun t => hash_str t mod 2 ^ 32) <$> l) = [88229167; 88485382; 3993503452; 1315198187; 3371460533].
Proof. split; [by repeat constructor|vm_compute; reflexivity]. Qed.

(** Tokens with the same hash are the same to a hasher; the 32, 16 and 8 bit ones use its low
    32 bits. *)
Theorem C74_same_hash (k : hasher_kind) (m : hasher) (xs ys : list (list N)) (t t' : list N) :
  hash_str t mod 2 ^ hash_bits k = hash_str t' mod 2 ^ hash_bits k ->
  create_signature k hash_str m (xs ++ t :: ys) = create_signature k hash_str m (xs ++ t' :: ys).
Proof.
  pose proof (proj2 (C74_value t)) as Ht. pose proof (proj2 (C74_value t')) as Ht'.
  generalize dependent hash_str. intros hash Ht Ht'.
  destruct k; unfold create_signature, create_signature_32, create_signature_64, hash_bits;
    [change (2 ^ 32) with u32..|rewrite !N.mod_small by done]; intros E; by rewrite !fmap_app, !fmap_cons, E.
Qed.
Example C74_same_hash_example : let m := Hasher [3; 5] [1; 9] 2 in
  let xs := [[97; 98]; [116; 98; 99; 49]] in let ys := [[97; 98]; [56; 80; 85; 65]] in
  create_signature MinHasher32 hash_str m xs = create_signature MinHasher32 hash_str m ys /\
  create_signature MinHasher64V1 hash_str m xs <> create_signature MinHasher64V1 hash_str m ys.
Proof. vm_compute. split; [reflexivity|congruence]. Qed.

(** Four bytes are too many for 32 bits: "tbc1" and "8PUA" have the same low 32 bits, so the 32,
    16 and 8 bit hashers take documents that differ in them for the same. *)
Theorem C74_short_32_refuted : exists t t' : list N, byte_string t /\ byte_string t' /\
  length t = 4%nat /\ length t' = 4%nat /\ t <> t' /\ hash_str t <> hash_str t' /\
  forall (k : hasher_kind) (m : hasher) (xs ys : list (list N)), k <> MinHasher64V1 ->
    create_signature k hash_str m (xs ++ t :: ys) = create_signature k hash_str m (xs ++ t' :: ys).
Proof.
  exists [116; 98; 99; 49], [56; 80; 85; 65]. split_and!; [by repeat constructor..|done|done|done|by vm_compute|].
  intros k m xs ys Hk. apply C74_same_hash. destruct k; [vm_compute; reflexivity..|congruence].
Qed.

(** Longer tokens collide in all bits: two documents of one token each, without a token in common,
    have the same signature for every hasher, and the similarity 1. *)
Theorem C74_collision_refuted : exists t t' : list N, byte_string t /\ byte_string t' /\ t <> t' /\
  hash_str t = hash_str t' /\
  (forall (k : hasher_kind) (m : hasher),
    create_signature k hash_str m [t] = create_signature k hash_str m [t']) /\
  (forall (k : hasher_kind) draws (n : nat) (seed : N), (0 < n)%nat -> N.of_nat n <= 2 ^ 53 ->
    compute_similarity k hash_str (new_with_hasher_and_seed draws n seed) [t] [t'] = Some f64_one).
Proof.
  exists [56;121;110;48;105;89;67;75;89;72;108;73;106;52;45;66;119;80;113;107],
    [71;82;101;76;85;114;77;52;119;77;113;102;103;57;121;122;86;51;75;81].
  split; [by repeat constructor|]. split; [by repeat constructor|]. split; [done|].
  assert (E : hash_str [56;121;110;48;105;89;67;75;89;72;108;73;106;52;45;66;119;80;113;107] =
    hash_str [71;82;101;76;85;114;77;52;119;77;113;102;103;57;121;122;86;51;75;81]) by (vm_compute; reflexivity).
  revert E. generalize [56;121;110;48;105;89;67;75;89;72;108;73;106;52;45;66;119;80;113;107] as t.
  generalize [71;82;101;76;85;114;77;52;119;77;113;102;103;57;121;122;86;51;75;81] as t'. intros t' t E.
  assert (Es : forall k m, create_signature k hash_str m [t] = create_signature k hash_str m [t']).
  { intros k m. apply (C74_same_hash k m [] []). by rewrite E. }
  split; [done|]. split; [done|]. intros k draws n seed Hn Hb.
  rewrite <- (C20_same_set_similarity_one k hash_str draws n seed [t] [t]) by done.
  unfold compute_similarity. by rewrite <- Es.
Qed.
Print Assumptions C74_ending.
Print Assumptions C74_ending_32.
Print Assumptions C74_window.
Print Assumptions C74_window_32.
Print Assumptions C74_short.
Print Assumptions C74_short_32.
Print Assumptions C74_same_hash.
Print Assumptions C74_short_32_refuted.
Print Assumptions C74_collision_refuted.
