(** Properties C39-C42: text. *)
From stdpp Require Import base list.
From Coq Require Import NArith Lia.
From Verif Require Import Base Text SpecText TextFacts.
Local Open Scope nat_scope.

(** ** C39 *)
Theorem C39_whitespace_split (text : list N) (ts : list (list N)) :
  (runs text ts <-> ts = whitespace_split text) /\
  whitespace_split_boxed text = whitespace_split text.
Proof.
  split; [|reflexivity]. split; [apply runs_split|]. intros ->. apply split_runs.
Qed.

Theorem C39_content (text : list N) :
  mjoin (whitespace_split text) = filter (fun c => c ∉ separators) text /\
  forall t, t ∈ whitespace_split text -> t ≠ [] /\ Forall (fun c => c ∉ separators) t.
Proof. exact (runs_content _ _ (split_runs text)). Qed.

Theorem C39_additive (a b : list N) (c : N) : c ∈ separators ->
  whitespace_split (a ++ c :: b) = whitespace_split a ++ whitespace_split b.
Proof. exact (ws_app_sep a c b). Qed.

(** "ab, c-d \u{b}e!" : the vertical tab (11) is not a separator. *)
Example C39_example :
  whitespace_split [97; 98; 44; 32; 99; 45; 100; 32; 11; 101; 33]%N
    = [[97; 98]; [99]; [100]; [11; 101]]%N /\
  whitespace_split [32; 44]%N = [] /\ (44 ∈ separators)%N.
Proof. split_and!; [vm_compute; reflexivity..|]. apply (bool_decide_unpack _). vm_compute. exact I. Qed.
Print Assumptions C39_whitespace_split.
Print Assumptions C39_content.
Print Assumptions C39_additive.

(** ** C40. The loop ends by itself after exactly these windows. *)
Theorem C40_slice_shingles {A} (l : list A) (from to : nat) : 1 <= to -> from <= to ->
  forall n, length (shingle_windows l from to) < n ->
    drive slice_next n (multi_shingles l from to) = (shingle_windows l from to, Ended).
Proof. exact (slice_shingles l from to). Qed.

Theorem C40_windows {A} (l : list A) (from to : nat) (x : list A) : 1 <= to -> from <= to ->
  x ∈ shingle_windows l from to <->
  exists p s, from <= s <= to /\ p + s <= length l /\ p <= length l + 1 - to /\ x = window l p s.
Proof. exact (elem_of_shingle_windows l from to x). Qed.

Example C40_example :
  drive slice_next 100 (multi_shingles [1;2;3;4]%N 1 3)
    = ([[1]; [1;2]; [1;2;3]; [2]; [2;3]; [2;3;4]; [3]; [3;4]]%N, Ended) /\
  drive slice_next 100 (multi_shingles [1;2]%N 1 3) = ([[1]; [1;2]]%N, Ended).
Proof. split; vm_compute; reflexivity. Qed.

(** Not every window with a size in the range is produced. *)
Theorem C40_all_windows_refuted :
  exists (l : list N) (from to p s : nat), 1 <= from <= s /\ s <= to /\ p + s <= length l /\
    forall n, window l p s ∉ (drive slice_next n (multi_shingles l from to)).1.
Proof.
  exists [1;2;3;4]%N, 1, 3, 3, 1. cbn [length]. split; [lia|]. split; [lia|]. split; [lia|].
  intros n. do 9 (destruct n as [|n]; [by vm_compute; set_solver|]).
  cbn. set_solver.
Qed.
Print Assumptions C40_slice_shingles.
Print Assumptions C40_windows.
Print Assumptions C40_all_windows_refuted.

(** ** C41. [text] is a list of characters; the iterator works on its UTF-8 bytes. *)
Theorem C41_str_shingles (text : list N) (from to : nat) : 1 <= from <= to ->
  forall n, length (shingle_windows text from to) < n ->
    shingle_text_range n (utf8_text text) from to = (utf8_text <$> shingle_windows text from to, Ended).
Proof.
  intros [H1 Hft] n Hn. unfold shingle_text_range.
  apply (str_simulates (multi_shingles text from to)); [done..| |by rewrite fmap_length].
  apply slice_shingles; lia.
Qed.

Theorem C41_never_panics (text : list N) (from to n : nat) :
  (shingle_text_range n (utf8_text text) from to).2 ≠ Panicked.
Proof. exact (str_never_panics n text from to from). Qed.

(** "aé€b" *)
Example C41_example :
  utf8_text [97; 233; 8364; 98]%N = [97; 195; 169; 226; 130; 172; 98]%N /\
  utf8_text [128512]%N = [240; 159; 152; 128]%N /\
  shingle_text_range 100 (utf8_text [97; 233; 8364; 98]%N) 2 3
    = ([[97; 195; 169]; [97; 195; 169; 226; 130; 172]; [195; 169; 226; 130; 172];
        [195; 169; 226; 130; 172; 98]; [226; 130; 172; 98]]%N, Ended).
Proof. split_and!; vm_compute; reflexivity. Qed.

(** The string iterator is not fused: after it returned None, next can return a shingle. *)
Theorem C41_fused_refuted :
  exists (text : list N) s1 s2 s3 s4 x y z,
    str_next (multi_shingles (utf8_text text) 1 3) = Some (Some x, s1) /\
    str_next s1 = Some (Some y, s2) /\ str_next s2 = Some (None, s3) /\
    str_next s3 = Some (Some z, s4).
Proof. eexists [97; 98]%N, _, _, _, _, _, _, _. split_and!; vm_compute; reflexivity. Qed.
Print Assumptions C41_str_shingles.
Print Assumptions C41_never_panics.
Print Assumptions C41_fused_refuted.

(** ** C42 *)
Theorem C42_slice_zero {A} (l : list A) (n : nat) : length l < n ->
  drive slice_next n (multi_shingles l 0 0) = (replicate (length l) [], Panicked).
Proof. exact (slice_zero l n). Qed.

Theorem C42_str_zero_diverges (n : nat) : shingle_text_range n [] 0 0 = (replicate n [], Running).
Proof.
  unfold shingle_text_range, multi_shingles. induction n as [|n IH]; [done|].
  cbn [drive].
  assert (E : str_next (Shingler [] 0 0 0 1) = Some (Some [], Shingler [] 0 0 0 1)) by reflexivity.
  rewrite E, IH. done.
Qed.

Theorem C42_str_from_zero (text : list N) (to n : nat) : text ≠ [] ->
  shingle_text_range (S n) (utf8_text text) 0 to = ([], Ended).
Proof.
  intros Hne. unfold shingle_text_range, multi_shingles. cbn [drive].
  rewrite str_next_spec. rewrite decide_False; [done|]. intros [?|[_ ?]]; [lia|done].
Qed.

Theorem C42_inverted {A} (l : list A) (from to : nat) : 1 <= from -> to < from ->
  forall n, length l + 1 - from < n ->
    drive slice_next n (multi_shingles l from to)
    = ((fun p => window l p from) <$> seq 0 (length l + 1 - from), Ended).
Proof.
  intros H1 Ht n Hn. apply (slice_inverted l from to H1 Ht). by rewrite fmap_length, seq_length.
Qed.

Theorem C42_str_inverted (text : list N) (from to : nat) : 1 <= from -> to < from ->
  forall n, length text + 1 - from < n ->
    shingle_text_range n (utf8_text text) from to
    = ((fun p => utf8_text (window text p from)) <$> seq 0 (length text + 1 - from), Ended).
Proof.
  intros H1 Ht n Hn. rewrite (list_fmap_compose (fun p => window text p from) utf8_text).
  apply (str_simulates (multi_shingles text from to)); [done..| |by rewrite !fmap_length, seq_length].
  by apply slice_inverted.
Qed.

Example C42_example :
  drive slice_next 9 (multi_shingles [1;2;3]%N 0 0) = ([[]; []; []]%N, Panicked) /\
  drive slice_next 9 (multi_shingles [1;2]%N 0 1) = ([[]; [1]; []; [2]; []]%N, Ended) /\
  shingle_text_range 9 [97; 98]%N 0 1 = ([], Ended) /\
  shingle_text_range 9 [] 0 1 = ([[]], Ended) /\
  shingle_text_range 4 [] 0 0 = ([[]; []; []; []], Running) /\
  shingle_text_range 9 [97; 98; 99]%N 2 1 = ([[97; 98]; [98; 99]]%N, Ended).
Proof. split_and!; vm_compute; reflexivity. Qed.
Print Assumptions C42_slice_zero.
Print Assumptions C42_str_zero_diverges.
Print Assumptions C42_str_from_zero.
Print Assumptions C42_inverted.
Print Assumptions C42_str_inverted.
