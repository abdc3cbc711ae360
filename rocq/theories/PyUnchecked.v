(** The Python class of simhash.py in builds without overflow checks, as the wheels are made.
    Definitions only. *)
From stdpp Require Import base list gmap strings.
From Coq Require Import NArith ZArith.
From Verif Require Import Base SimHashIndex PyTokenizer PyMinHash PySimHash Unchecked.

(** sim_hash.rs:30-42 [new] on top of the unchecked [SimHashIndex::new]. *)
Definition ps_new_u (W : nat) (room : bool) (fuel num_blocks max_distance : nat) (analyzer : option string)
    (lowercase : option bool) (range : option (nat * nat)) : progress py_sindex :=
  and_then (sindex_new_u W room fuel num_blocks max_distance) (fun inner =>
  Done (PySIndex inner (tokenizer_new (default "word"%string analyzer) range) (default false lowercase))).

(** simhash.py:43-66 [__init__]; the conversion to [usize] rejects negative numbers and those
    from 2^64 on. A panic is an exception, so the constructor has ended. *)
Definition sclass_new_u (room : bool) (fuel : nat) (hash_size num_blocks hamming_distance : Z) (an : analyzer)
    (lowercase : option bool) (range : option (nat * nat)) : progress smade :=
  if negb (bool_decide (hash_size ∈ [64; 128]%Z)) then Done BadHashSize
  else if (num_blocks <? 3)%Z && (32 <? num_blocks)%Z then Done BadNumBlocks
  else if (num_blocks <=? hamming_distance)%Z then Done BadDistance
  else if match an with
          | Callable _ => false
          | Named s => negb (bool_decide (s ∈ ["word"; "char"]%string))
          end then Done BadAnalyzer
  else if (num_blocks <? 0)%Z || (hamming_distance <? 0)%Z || (2 ^ 64 <=? num_blocks)%Z then Done OverflowError
  else
    let name := match an with Callable _ => "word"%string | Named s => s end in
    let W := if (hash_size =? 64)%Z then 64 else 128 in
    match ps_new_u W room fuel (Z.to_nat num_blocks) (Z.to_nat hamming_distance) (Some name) lowercase range with
    | Done m => Done (SMade W m)
    | Panicked => Done SPanic
    | Running => Running
    end.
