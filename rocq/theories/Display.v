(** Model of the texts the indexes print: [Display] of gaoya/src/minhash/minhash_index.rs and
    [__str__]/[__repr__] of py-gaoya/src/min_hash.rs. Definitions only. *)
From stdpp Require Import base list gmap strings.
From Coq Require Import NArith Decimal DecimalString.
From Verif Require Import Base Float Container MinHashIndex MinHasher Text PyTokenizer PyMinHash.
Local Open Scope string_scope.

(** [Display] and [Debug] of usize: decimal digits without leading zeros. *)
Definition show_usize (n : nat) : string := NilZero.string_of_uint (Nat.to_uint n).

(** minhash_index.rs:330-341 [Display::fmt]. [tn] is [type_name::<T>()] and [show] the [Display]
    of f64. *)
Definition display {C Id T : Type} `{Countable Id} (tn : string) (show : f64 -> string)
    (m : index C Id T) : string :=
  "MinHashIndex<" ++ tn ++ "> { threshold = " ++ show (threshold m) ++
  ", num_hashes = " ++ show_usize (idx_b m * idx_r m) ++
  ", bands = " ++ show_usize (idx_b m) ++
  ", rows_per_band = " ++ show_usize (idx_r m) ++
  ", size = " ++ show_usize (size (id_signatures m)) ++ " }".

(** lib.rs:22-27: the derived [Debug] of the tokenizer; the pair is a single field. *)
Definition debug_range (from : nat) (to : option nat) : string :=
  "((" ++ show_usize from ++ ", " ++
  match to with Some t => "Some(" ++ show_usize t ++ ")" | None => "None" end ++ "))".
Definition debug_tokenizer (t : tokenizer) : string :=
  match t with
  | CharShingle from to => "CharShingle" ++ debug_range from to
  | WhiteSpace => "WhiteSpace"
  | WhiteSpaceShingle from to => "WhiteSpaceShingle" ++ debug_range from to
  end.

(** min_hash.rs:218-220 [__str__] and 222-224 [__repr__]; minhash.py:243-247 pass them on. *)
Definition py_str {ck} (tn : string) (show : f64 -> string) (p : py_index ck) : string :=
  display tn show (py_inner p) ++ " " ++ debug_tokenizer (py_tokenizer p).
