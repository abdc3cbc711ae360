(** Specification vocabulary for text. *)
From stdpp Require Import base list.
From Coq Require Import NArith.

(** The separators, by code point: space, tab, line feed, form feed, carriage return, then the
    32 ASCII characters that are printable but neither a letter, a digit nor the space. *)
Definition separators : list N :=
  [32; 9; 10; 12; 13;
   33; 34; 35; 36; 37; 38; 39; 40; 41; 42; 43; 44; 45; 46; 47; 58; 59; 60; 61; 62; 63; 64;
   91; 92; 93; 94; 95; 96; 123; 124; 125; 126]%N.

(** [runs text ts]: [ts] are the maximal non-empty separator-free runs of [text]. *)
Inductive runs : list N -> list (list N) -> Prop :=
| runs_end s : Forall (fun c => c ∈ separators) s -> runs s []
| runs_token s t rest ts :
    Forall (fun c => c ∈ separators) s ->
    t ≠ [] -> Forall (fun c => c ∉ separators) t ->
    (rest = [] \/ exists c r, rest = c :: r /\ c ∈ separators) ->
    runs rest ts -> runs (s ++ t ++ rest) (t :: ts).

(** The window of [l] of size [s] at position [p]. *)
Definition window {A} (l : list A) (p s : nat) : list A := take s (drop p l).

(** What MultiShingles yields: all sizes at the first [length l + 1 - to] positions, then the
    sizes that fit at the next one. *)
Definition shingle_windows {A} (l : list A) (from to : nat) : list (list A) :=
  let k := length l + 1 - to in
  mjoin ((fun p => window l p <$> seq from (to + 1 - from)) <$> seq 0 k)
    ++ (window l k <$> seq from (length l - k + 1 - from)).

(** UTF-8 encoding of a code point. *)
Definition utf8 (c : N) : list N :=
  if (c <? 128)%N then [c]
  else if (c <? 2048)%N then [192 + c / 64; 128 + c mod 64]%N
  else if (c <? 65536)%N then [224 + c / 4096; 128 + c / 64 mod 64; 128 + c mod 64]%N
  else [240 + c / 262144; 128 + c / 4096 mod 64; 128 + c / 64 mod 64; 128 + c mod 64]%N.
Definition utf8_text (text : list N) : list N := mjoin (utf8 <$> text).
