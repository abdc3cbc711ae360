(** Model of [reader.lines()] as used by gaoya/src/minhash/string_index.rs:54 and 80-81: from the
    bytes of a file to the lines the loaders see. Definitions only.

    [BufRead::lines] and the UTF-8 check are the standard library's; they are modelled because
    they decide which documents a load adds. A reader is what is left to read: bytes, and [None]
    where a read fails with an I/O error other than [Interrupted] (which is retried); [stuck]
    tells whether every read after that fails, as for a directory. *)
From stdpp Require Import base list.
From Coq Require Import NArith.
From Verif Require Import Base Text StringIndex.

Record reader := Reader { pending : list (option N); stuck : bool }.

(** [read_until(b'\n', buf)]: the bytes up to and with the next line feed, or all that are left.
    After an error the bytes already read are gone. *)
Fixpoint read_until (ev : list (option N)) (stuck : bool) : option (list N) * list (option N) :=
  match ev with
  | [] => (if stuck then None else Some [], [])
  | None :: ev' => (None, ev')
  | Some b :: ev' =>
      if (b =? 10)%N then (Some [b], ev')
      else let r := read_until ev' stuck in (cons b <$> r.1, r.2)
  end.

(** [str::from_utf8]: the characters of a byte sequence, [None] if it is not UTF-8. *)
Fixpoint decode (l : list N) : option text :=
  match l with
  | [] => Some []
  | b1 :: l1 =>
      if (b1 <? 128)%N then cons b1 <$> decode l1
      else if (b1 <? 194)%N then None
      else if (b1 <? 224)%N then
        match l1 with
        | b2 :: l2 =>
            if is_continuation b2 then cons ((b1 - 192) * 64 + (b2 - 128))%N <$> decode l2 else None
        | _ => None
        end
      else if (b1 <? 240)%N then
        match l1 with
        | b2 :: b3 :: l3 =>
            let c := ((b1 - 224) * 4096 + (b2 - 128) * 64 + (b3 - 128))%N in
            if is_continuation b2 && is_continuation b3 && (2048 <=? c)%N
               && negb ((55296 <=? c) && (c <? 57344))%N
            then cons c <$> decode l3 else None
        | _ => None
        end
      else if (b1 <? 245)%N then
        match l1 with
        | b2 :: b3 :: b4 :: l4 =>
            let c := ((b1 - 240) * 262144 + (b2 - 128) * 4096 + (b3 - 128) * 64 + (b4 - 128))%N in
            if is_continuation b2 && is_continuation b3 && is_continuation b4
               && (65536 <=? c)%N && (c <? 1114112)%N
            then cons c <$> decode l4 else None
        | _ => None
        end
      else None
  end.

(** [if buf.ends_with('\n') { buf.pop(); if buf.ends_with('\r') { buf.pop(); } }] *)
Definition strip_end (t : text) : text :=
  match rev t with
  | 10%N :: 13%N :: r => rev r
  | 10%N :: r => rev r
  | _ => t
  end.

(** [Lines::next]: [Ok None] at the end, else the line ([None] for an [Err]) and the reader. *)
Definition lines_next (r : reader) : res (option (option text) * reader) :=
  match read_until (pending r) (stuck r) with
  | (None, ev) => Ok (Some None, Reader ev (stuck r))
  | (Some [], ev) => Ok (None, Reader ev (stuck r))
  | (Some bytes, ev) => Ok (Some (strip_end <$> decode bytes), Reader ev (stuck r))
  end.

(** The first [n] calls of [next]. *)
Definition lines_upto (n : nat) (r : reader) : list (option text) * status := drive lines_next n r.

(** All lines of a reader that ends; every call but the last consumes something. *)
Definition file_lines (r : reader) : list (option text) := (lines_upto (S (length (pending r))) r).1.
