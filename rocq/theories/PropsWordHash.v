(** C103: shingles of words under the default token hash. *)
From stdpp Require Import base list list_numbers strings.
From Coq Require Import NArith ZArith Lia.
From Verif Require Import Base Text SpecText Float Container MinHasher SpecMinHash Fnv SpecFnv FnvFacts PropsFnv StringIndex PyTokenizer PyHash PyMinHash
  SpecCollision PropsCollision SpecLowBits LowBitsFacts SpecWordHash WordHashFacts.
Local Open Scope N_scope.

(** The hash of a shingle is the FNV-1a hash of the number of its words and the words, each
    followed by a byte 255. *)
Theorem C103_value (ws : list (list N)) : fnv1a_64 (shingle_bytes ws) (hash_words ws).
Proof. rewrite hash_words_stream. apply write_fnv1a. Qed.

(** These bytes can be read back: different shingles feed different bytes, and none is the
    beginning of another. *)
Theorem C103_readable (us vs : list (list N)) (s t : list N) :
  N.of_nat (length us) < 2 ^ 64 -> N.of_nat (length vs) < 2 ^ 64 -> Forall utf8_like us -> Forall utf8_like vs ->
  shingle_bytes us ++ s = shingle_bytes vs ++ t -> us = vs /\ s = t.
Proof. exact (shingle_read us vs s t). Qed.

(** Shingles that differ within four consecutive bytes of one word do not collide, ... *)
Theorem C103_window (xs ys : list (list N)) (p u v s : list N) :
  byte_string u -> byte_string v -> byte_string s -> Forall byte_string ys ->
  length u = length v -> (length u <= 4)%nat ->
  hash_words (xs ++ (p ++ u ++ s) :: ys) = hash_words (xs ++ (p ++ v ++ s) :: ys) -> u = v.
Proof.
  intros Hu Hv Hs Hys Hl Hn. rewrite !hash_words_stream, !shingle_place. apply stream_window; try done.
  apply Forall_app. split; [done|]. constructor; [done|by apply bytes_words].
Qed.
(** ... within three bytes, not even in the low 32 bits. *)
Theorem C103_window_32 (xs ys : list (list N)) (p u v s : list N) :
  byte_string u -> byte_string v -> byte_string s -> Forall byte_string ys ->
  length u = length v -> (length u <= 3)%nat ->
  hash_words (xs ++ (p ++ u ++ s) :: ys) mod 2 ^ 32 = hash_words (xs ++ (p ++ v ++ s) :: ys) mod 2 ^ 32 -> u = v.
Proof.
  intros Hu Hv Hs Hys Hl Hn. rewrite !hash_words_stream, !shingle_place. apply stream_window_32; try done.
  apply Forall_app. split; [done|]. constructor; [done|by apply bytes_words].
Qed.

(** Moving a border between two words by one to three bytes changes the hash, ... *)
Theorem C103_border (xs ys : list (list N)) (p s t : list N) :
  utf8_like s -> byte_string t -> Forall byte_string ys -> (1 <= length s <= 3)%nat ->
  hash_words (xs ++ (p ++ s) :: t :: ys) <> hash_words (xs ++ p :: (s ++ t) :: ys).
Proof.
  intros Hs Ht Hys Hn E. rewrite !hash_words_stream, shingle_border, shingle_border' in E.
  apply stream_window in E.
  - destruct s as [|b s]; [cbn in Hn; lia|]. injection E as -> _. apply Forall_cons_1 in Hs as [Hs _]. lia.
  - apply Forall_app. split; [|by repeat constructor]. eapply Forall_impl; [exact Hs|]. cbn. lia.
  - constructor; [done|]. eapply Forall_impl; [exact Hs|]. cbn. lia.
  - apply Forall_app. split; [done|]. constructor; [done|by apply bytes_words].
  - rewrite app_length. cbn. lia.
  - rewrite app_length. cbn. lia.
Qed.
(** ... by one or two bytes, already in the low 32 bits. *)
Theorem C103_border_32 (xs ys : list (list N)) (p s t : list N) :
  utf8_like s -> byte_string t -> Forall byte_string ys -> (1 <= length s <= 2)%nat ->
  hash_words (xs ++ (p ++ s) :: t :: ys) mod 2 ^ 32 <> hash_words (xs ++ p :: (s ++ t) :: ys) mod 2 ^ 32.
Proof.
  intros Hs Ht Hys Hn E. rewrite !hash_words_stream, shingle_border, shingle_border' in E.
  apply stream_window_32 in E.
  - destruct s as [|b s]; [cbn in Hn; lia|]. injection E as -> _. apply Forall_cons_1 in Hs as [Hs _]. lia.
  - apply Forall_app. split; [|by repeat constructor]. eapply Forall_impl; [exact Hs|]. cbn. lia.
  - constructor; [done|]. eapply Forall_impl; [exact Hs|]. cbn. lia.
  - apply Forall_app. split; [done|]. constructor; [done|by apply bytes_words].
  - rewrite app_length. cbn. lia.
  - rewrite app_length. cbn. lia.
Qed.

(** Letter case, as for strings (C102). *)
Theorem C103_case (us vs : list (list N)) : shingle_case us vs ->
  if Nat.odd (shingle_changes us vs) then agree_to 5 (hash_words us) (hash_words vs)
  else hash_words us mod 2 ^ 6 = hash_words vs mod 2 ^ 6.
Proof.
  intros Huv. destruct (shingle_case_bytes us vs Huv) as [Hc <-]. rewrite !hash_words_stream.
  destruct (case_low _ _ Hc) as [Hl <-]. by apply (write_exact 5).
Qed.

(** The hash of a shingle (of fewer than 256 words) is odd exactly if an even number of the
    bytes of its words is odd ... *)
Theorem C103_parity (ws : list (list N)) : (length ws < 256)%nat ->
  N.odd (hash_words ws) = negb (Nat.odd (odd_ones (concat ws))).
Proof. exact (shingle_odd_small ws). Qed.

(** ... which is the opposite of a string with as many odd bytes. So a shingle never has the
    hash of its text, with the words joined by bytes that are even, such as spaces: the lowest bits differ. *)
Theorem C103_never_text (ws : list (list N)) (text : list N) : (length ws < 256)%nat ->
  Nat.odd (odd_ones text) = Nat.odd (odd_ones (concat ws)) -> agree_to 0 (hash_words ws) (hash_str text).
Proof.
  intros Hn Ho. apply agree_to_bits. split; [unfold cong; by rewrite !N.mod_1_r|].
  intros Eo. rewrite cong_bits in Eo. specialize (Eo 0 eq_refl). rewrite !N.bit0_odd in Eo.
  rewrite C103_parity, hash_odd in Eo by done. fold (odd_ones text) in Eo. rewrite Ho in Eo.
  by destruct (Nat.odd (odd_ones (concat ws))).
Qed.

(** A document of one word, tokenized as a shingle of one word, and the same word given as a
    token: their signatures agree at a position for at most 4 (32 bits) or 16 (64 bits) of the
    multipliers that may be drawn. *)
Theorem C103_word_and_token (kind : hasher_kind) (draws : N -> nat -> nat -> N) (n : nat) (seed : N) (w s s' : list N) (i : nat) :
  kind = MinHasher32 \/ kind = MinHasher64V1 -> (i < n)%nat ->
  create_signature kind hash_token (new_with_hasher_and_seed draws n seed) [TWords [w]] = Some s ->
  create_signature kind hash_token (new_with_hasher_and_seed draws n seed) [TStr w] = Some s' ->
  exists l : list N, length l = N.to_nat (2 * fits kind) /\
    (multiplier kind (draws seed n i) -> s !! i = s' !! i -> draws seed n i ∈ l).
Proof.
  intros Hk Hi Hs Hs'.
  destruct (C93_few kind (draws seed n (n + i)%nat) (hash_words [w]) (hash_str w) 0) as (l & Hl & Hin).
  { apply C103_never_text; [cbn; lia|]. cbn [concat]. by rewrite app_nil_r. }
  { by destruct kind. }
  exists l. split; [done|]. intros Hm E. apply Hin; [done|].
  by apply (C93_position draws n seed kind hash_token (TWords [w]) (TStr w) s s' i Hk Hi Hs Hs').
Qed.

(** In Python: an index made with ngram_range (1, 1), a document of one word [w], and the list
    of tokens [w]. The iterator of the crate shingles yields the one shingle of one word. *)
Theorem C103_py (lower : text -> text) shingles_str shingles_words powf draws (ck : container_kind) (kind : hasher_kind)
    (nb bw : nat) (th : f64) (lc : option bool) (doc w : text) (m : py_index ck) (s s' : list N) (i : nat) :
  shingles_words [utf8_text w] 1%nat = Some [[utf8_text w]] ->
  kind = MinHasher32 \/ kind = MinHasher64V1 ->
  whitespace_split (if default false lc then lower doc else doc : text) = [w] ->
  py_new powf draws ck th (Some nb) (Some bw) None (Some "word"%string) lc (Some (1, 1)%nat) = Made m ->
  py_doc_signature lower shingles_str shingles_words hash_token ck kind m doc = Some s ->
  py_tokens_signature hash_token ck kind m [w] = Some s' -> (i < nb * bw)%nat ->
  exists l : list N, length l = N.to_nat (2 * fits kind) /\
    (multiplier kind (draws 3 (nb * bw)%nat i) -> s !! i = s' !! i -> draws 3 (nb * bw)%nat i ∈ l).
Proof.
  intros Hsh Hk Hw [= <-] Hs Hs' Hi.
  assert (Ht : doc_tokens lower shingles_str shingles_words (WhiteSpaceShingle 1 None) (default false lc) doc =
    Some [TWords [utf8_text w]]).
  { unfold doc_tokens, tokenize, words. destruct (default false lc); rewrite Hw; cbn [fmap list_fmap]; by rewrite Hsh. }
  unfold py_doc_signature in Hs. cbn [py_make py_tokenizer py_lowercase py_hasher] in Hs.
  change (tokenizer_new (default "word"%string (Some "word"%string)) (Some (1, 1)%nat)) with (WhiteSpaceShingle 1 None) in Hs.
  rewrite Ht in Hs.
  exact (C103_word_and_token kind draws (nb * bw) 3 (utf8_text w) s s' i Hk Hi Hs Hs').
Qed.

(** The document " cat " and the token "cat", two bands of one hash. *)
Example C103_py_example :
  let draws := fun (_ : N) (_ i : nat) => 1000003 * N.of_nat i + 17 in
  let windows (ws : list (list N)) n := Some ((fun p => take n (drop p ws)) <$> seq 0 (length ws + 1 - n)) in
  exists m : py_index KHashSet,
    windows [utf8_text [99;97;116]] 1%nat = Some [[utf8_text [99;97;116]]] /\
    whitespace_split [32;99;97;116;32] = [[99;97;116]] /\
    py_new (fun a _ => a) draws KHashSet f64_one (Some 2%nat) (Some 1%nat) None (Some "word"%string) None (Some (1, 1)%nat) = Made m /\
    py_doc_signature (fun t => t) (fun _ _ => None) windows hash_token KHashSet MinHasher32 m [32;99;97;116;32] =
      Some [1941466492; 952356287] /\
    py_tokens_signature hash_token KHashSet MinHasher32 m [[99;97;116]] = Some [1892117791; 37878138].
Proof.
  eexists. split; [|split; [|split; [reflexivity|]]]; [vm_compute; reflexivity|vm_compute; reflexivity|].
  split; vm_compute; reflexivity.
Qed.

(** "the cat" and "The cat", and the text "the cat". *)
Example C103_example :
  let the := [116;104;101] in let The := [84;104;101] in let cat := [99;97;116] in
  hash_words [the; cat] mod 2 ^ 32 = 670976754 /\
  shingle_case [The; cat] [the; cat] /\ shingle_changes [The; cat] [the; cat] = 1%nat /\
  Forall utf8_like [the; cat] /\ Forall byte_string [the; cat] /\
  hash_words [the; cat] mod 64 = 50 /\ hash_words [The; cat] mod 64 = 18 /\
  odd_ones (the ++ [32] ++ cat) = odd_ones (concat [the; cat]) /\
  N.odd (hash_words [the; cat]) = false /\ N.odd (hash_str (the ++ [32] ++ cat)) = true.
Proof.
  cbv zeta. split; [vm_compute; reflexivity|]. split.
  { repeat constructor; unfold same_letter, upper_letter; lia. }
  split; [vm_compute; reflexivity|]. split; [by repeat constructor|]. split; [by repeat constructor|].
  split; [vm_compute; reflexivity|]. split; [vm_compute; reflexivity|]. split; [vm_compute; reflexivity|].
  split; vm_compute; reflexivity.
Qed.

Lemma same_shingle (k : hasher_kind) (m : hasher) (us vs : list (list N)) : k <> MinHasher64V1 ->
  hash_words us mod u32 = hash_words vs mod u32 ->
  create_signature k hash_token m [TWords us] = create_signature k hash_token m [TWords vs].
Proof.
  change (hash_words us) with (hash_token (TWords us)). change (hash_words vs) with (hash_token (TWords vs)).
  generalize (TWords us), (TWords vs), hash_token. intros a b hash Hk E.
  destruct k; [..|done]; unfold create_signature, create_signature_32; cbn [fmap list_fmap]; by rewrite E.
Qed.

(** "play union" and "comes doc": documents of two words without a word in common are the same
    to the 32, 16 and 8 bit hashers, as shingles of two words. *)
Theorem C103_collision_refuted : exists us vs : list (list N),
  Forall utf8_like us /\ Forall utf8_like vs /\ length us = 2%nat /\ length vs = 2%nat /\
  (forall w, w ∈ us -> w ∉ vs) /\ hash_words us <> hash_words vs /\
  forall (k : hasher_kind) (m : hasher), k <> MinHasher64V1 ->
    create_signature k hash_token m [TWords us] = create_signature k hash_token m [TWords vs].
Proof.
  exists [[112;108;97;121]; [117;110;105;111;110]], [[99;111;109;101;115]; [100;111;99]].
  assert (E : hash_words [[112;108;97;121]; [117;110;105;111;110]] mod u32 =
    hash_words [[99;111;109;101;115]; [100;111;99]] mod u32) by (vm_compute; reflexivity).
  split; [by repeat constructor|]. split; [by repeat constructor|]. split; [done|]. split; [done|]. split.
  { apply Forall_forall. apply (bool_decide_unpack _). vm_compute. exact I. }
  split; [by vm_compute|].
  intros k m Hk. apply same_shingle; [exact Hk|exact E].
Qed.
Print Assumptions C103_value.
Print Assumptions C103_readable.
Print Assumptions C103_window.
Print Assumptions C103_window_32.
Print Assumptions C103_border.
Print Assumptions C103_border_32.
Print Assumptions C103_case.
Print Assumptions C103_parity.
Print Assumptions C103_never_text.
Print Assumptions C103_word_and_token.
Print Assumptions C103_py.
Print Assumptions C103_collision_refuted.
