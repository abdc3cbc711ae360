(** Model of gaoya/src/text/tokenizers.rs and multi_shingles.rs. Definitions only.

    A [char] is its code point (a number); a [&str] is the list of its bytes, or, where only
    whole characters matter, the list of its characters.
    Not modelled: shingle_text, shingle_text_boxed and shingle_tokens
    (tokenizers.rs:17-19, 26-36), which only call the external crate [shingles]. *)
From stdpp Require Import base list.
From Coq Require Import NArith.
From Verif Require Import Base.

(** ** tokenizers.rs *)

(** [char::is_ascii_punctuation] and [char::is_ascii_whitespace] (standard library). *)
Definition is_ascii_punctuation (c : N) : bool :=
  ((33 <=? c) && (c <=? 47) || (58 <=? c) && (c <=? 64) || (91 <=? c) && (c <=? 96)
   || (123 <=? c) && (c <=? 126))%N.
Definition is_ascii_whitespace (c : N) : bool :=
  ((c =? 32) || (c =? 9) || (c =? 10) || (c =? 12) || (c =? 13))%N.

(** [str::split] with a closure (standard library). *)
Fixpoint split_on (sep : N -> bool) (text : list N) : list (list N) :=
  match text with
  | [] => [[]]
  | c :: text' =>
      if sep c then [] :: split_on sep text'
      else match split_on sep text' with
           | t :: ts => (c :: t) :: ts
           | [] => [[c]]
           end
  end.

Definition is_empty {A} (l : list A) : bool := match l with [] => true | _ => false end.

(** tokenizers.rs:5-9 [whitespace_split]; 11-15 [whitespace_split_boxed] is the same, boxed. *)
Definition whitespace_split (text : list N) : list (list N) :=
  List.filter (fun x => negb (is_empty x))
    (split_on (fun c => is_ascii_punctuation c || is_ascii_whitespace c) text).
Definition whitespace_split_boxed (text : list N) : list (list N) :=
  List.filter (fun x => negb (is_empty x))
    (split_on (fun c => is_ascii_punctuation c || is_ascii_whitespace c) text).

(** ** multi_shingles.rs *)

(** multi_shingles.rs:6-12 [MultiShingles]; [A] is the element type of the slice ([u8] for str). *)
Record shingler (A : Type) := Shingler {
  sh_data : list A;
  from_size : nat;
  to_size : nat;
  sh_size : nat;
  sh_step : nat;
}.
Arguments Shingler {A}.
Arguments sh_data {A}.
Arguments from_size {A}.
Arguments to_size {A}.
Arguments sh_size {A}.
Arguments sh_step {A}.

(** multi_shingles.rs:16-24 [new]. *)
Definition multi_shingles {A} (data : list A) (from to : nat) : shingler A :=
  Shingler data from to from 1.

(** multi_shingles.rs:27-43 [next] on slices. The sizes are assumed not to overflow [usize]. *)
Definition slice_next {A} (s : shingler A) : res (option (list A) * shingler A) :=
  if (sh_size s <=? length (sh_data s))%nat then
    ret ← slice (sh_data s) 0 (sh_size s);
    let size := sh_size s + 1 in
    if (to_size s <? size)%nat then
      data ← slice (sh_data s) (sh_step s) (length (sh_data s));
      Ok (Some ret, Shingler data (from_size s) (to_size s) (from_size s) (sh_step s))
    else Ok (Some ret, Shingler (sh_data s) (from_size s) (to_size s) size (sh_step s))
  else Ok (None, s).

(** multi_shingles.rs:54-56: positions of the bytes that start a character. *)
Definition is_continuation (b : N) : bool := ((128 <=? b) && (b <? 192))%N.
Fixpoint boundaries (i : nat) (bytes : list N) : list nat :=
  match bytes with
  | [] => []
  | b :: bytes' =>
      if is_continuation b then boundaries (i + 1) bytes' else i :: boundaries (i + 1) bytes'
  end.

(** multi_shingles.rs:59-70: the scan; returns [chars], [pos_next], [pos_end]. *)
Fixpoint scan (step size : nat) (ps : list nat) (chars pos_next pos_end : nat) : nat * nat * nat :=
  match ps with
  | [] => (chars, pos_next, pos_end)
  | i :: ps' =>
      let pos_next := if (chars =? step)%nat then i else pos_next in
      let pos_end := if (chars =? size)%nat then i else pos_end in
      if negb (pos_next =? 0)%nat && negb (pos_end =? 0)%nat then (chars, pos_next, pos_end)
      else scan step size ps' (chars + 1) pos_next pos_end
  end.

(** [&s[a..b]] on a [str] (standard library): also panics inside a character. *)
Definition is_char_boundary (bytes : list N) (k : nat) : bool :=
  (k =? 0)%nat || (k =? length bytes)%nat ||
  match bytes !! k with Some b => negb (is_continuation b) | None => false end.
Definition str_slice (bytes : list N) (a b : nat) : res (list N) :=
  if is_char_boundary bytes a && is_char_boundary bytes b then slice bytes a b else Panic.

(** multi_shingles.rs:45-94 [next] on strings. *)
Definition str_next (s : shingler N) : res (option (list N) * shingler N) :=
  let '(chars, pos_next, pos_end) :=
    scan (sh_step s) (sh_size s) (boundaries 0 (sh_data s)) 0 0 0 in
  ret ← (if negb (pos_end =? 0)%nat then Some <$> str_slice (sh_data s) 0 pos_end
         else if (chars =? sh_size s)%nat then Ok (Some (sh_data s))
         else Ok None);
  let size := sh_size s + 1 in
  if (to_size s <? size)%nat then
    data ← (if negb (pos_next =? 0)%nat then str_slice (sh_data s) pos_next (length (sh_data s))
            else str_slice (sh_data s) (length (sh_data s)) (length (sh_data s)));
    Ok (ret, Shingler data (from_size s) (to_size s) (from_size s) (sh_step s))
  else Ok (ret, Shingler (sh_data s) (from_size s) (to_size s) size (sh_step s)).

(** Driving an iterator by a [for] loop for at most [n] calls of [next]: the items, and how it
    stands. *)
Inductive status := Ended | Running | Panicked.
Fixpoint drive {St Item} (next : St -> res (option Item * St)) (n : nat) (s : St)
  : list Item * status :=
  match n with
  | O => ([], Running)
  | S n' =>
      match next s with
      | None => ([], Panicked)
      | Some (None, _) => ([], Ended)
      | Some (Some x, s') => let r := drive next n' s' in (x :: r.1, r.2)
      end
  end.

(** tokenizers.rs:22-24 [shingle_text_range]; multi_shingles.rs:95-109 [as_shingles] are the
    constructors above. *)
Definition shingle_text_range (n : nat) (text : list N) (from to : nat) : list (list N) * status :=
  drive str_next n (multi_shingles text from to).
