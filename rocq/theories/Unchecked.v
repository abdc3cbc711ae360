(** Model of gaoya/src/simhash/permutation.rs and of [SimHashIndex::new] in a build without
    overflow checks, as [cargo build --release] and maturin make it (py-gaoya/Cargo.toml:41 sets
    none): shift amounts are reduced modulo the width of the type and [usize] arithmetic modulo
    2^64. Everything else that the checked model (Permutation.v, SimHashIndex.v) describes is the
    same text. Definitions only.

    The loop of permutation.rs:42-44 may run for ever; it is given [fuel] rounds. *)
From stdpp Require Import base list gmap.
From Coq Require Import NArith ZArith.
From Verif Require Import Base SimHashBits Permutation SimHashIndex.

(** A call has returned, has panicked, or is still running when the rounds are used up. *)
Inductive progress (A : Type) := Done (a : A) | Panicked | Running.
Arguments Done {A}.
Arguments Panicked {A}.
Arguments Running {A}.
Definition and_then {A B} (x : progress A) (f : A -> progress B) : progress B :=
  match x with Done a => f a | Panicked => Panicked | Running => Running end.
Fixpoint each {A B} (f : A -> progress B) (l : list A) : progress (list B) :=
  match l with
  | [] => Done []
  | x :: l' => and_then (f x) (fun y => and_then (each f l') (fun ys => Done (y :: ys)))
  end.

Section Unchecked.
Context (W : nat).

(** [x << n] and [x >> n]: [n] modulo the number of bits. *)
Definition shl_u (x : N) (n : N) : N := (N.shiftl x (n mod N.of_nat W) mod 2 ^ N.of_nat W)%N.
Definition shr_u (x : N) (n : N) : N := N.shiftr x (n mod N.of_nat W)%N.

(** permutation.rs:42-44; [i] is a [usize]. *)
Fixpoint skip_zeros_u (fuel : nat) (mask : N) (i : N) : progress N :=
  if (N.land (shl_u 1 i) mask =? 0)%N then
    match fuel with O => Running | S fuel' => skip_zeros_u fuel' mask ((i + 1) mod 2 ^ 64)%N end
  else Done i.

(** permutation.rs:46-49. *)
Fixpoint skip_ones_u (fuel : nat) (mask : N) (j : N) : progress N :=
  if (j <? N.of_nat W)%N then
    if (N.land (shl_u 1 j) mask =? 0)%N then Done j
    else match fuel with O => Running | S fuel' => skip_ones_u fuel' mask (j + 1)%N end
  else Done j.

(** permutation.rs:36-56. *)
Fixpoint layout_u (fuel : nat) (acc : nat) (masks : list N) : progress (list (nat * Z)) :=
  match masks with
  | [] => Done []
  | mask :: masks' =>
      and_then (skip_zeros_u fuel mask 0) (fun i =>
      and_then (skip_ones_u fuel mask i) (fun j =>
      let acc' := acc + N.to_nat (j - i) in
      and_then (layout_u fuel acc' masks') (fun rest =>
      Done ((N.to_nat (j - i), (Z.of_nat W - Z.of_nat acc' - Z.of_N i)%Z) :: rest))))
  end.

(** permutation.rs:66-71. *)
Definition make_search_mask_u (w : nat) : N :=
  Nat.iter (W - w) (fun m => shl_u m 1) (Nat.iter w (fun m => N.lor (shl_u m 1) 1) 0%N).

(** permutation.rs:22-76 [new]. If [widths.len() - diff_bits] wraps around, the loop 61-64 runs
    past the end of [widths] and panics there. *)
Definition perm_new_u (fuel : nat) (diff_bits : nat) (masks choice : list N) : progress permutation :=
  and_then (layout_u fuel 0 masks) (fun lay =>
  if (diff_bits <=? length lay)%nat then
    let n := length lay - diff_bits in
    let w := sum_list (fst <$> take n lay) in
    Done (Permutation_ (take n (zip masks (snd <$> lay))) (make_search_mask_u w) (foldl N.lor 0%N choice) w)
  else Panicked).

(** permutation.rs:85-93. *)
Definition block_mask_u (num_blocks i : nat) : N :=
  let start := i * W / num_blocks in
  let stop := (i + 1) * W / num_blocks in
  foldl (fun m j => N.lor m (shl_u 1 (N.of_nat j))) 0%N (seq start (stop - start)).

(** permutation.rs:78-106 [create]. If [num_blocks - diff_bits] wraps around, [combinations] is asked
    for more blocks than there are: it panics if it makes room for them ([room]), and has no
    elements otherwise. *)
Definition perm_create_u (room : bool) (fuel num_blocks diff_bits : nat) : progress (list permutation) :=
  let blocks := block_mask_u num_blocks <$> seq 0 num_blocks in
  if (diff_bits <=? num_blocks)%nat then
    each (fun comb => perm_new_u fuel diff_bits (all_blocks blocks comb) comb)
      (combinations (num_blocks - diff_bits) blocks)
  else if room then Panicked else Done [].

(** permutation.rs:108-122 [permute]. *)
Definition permute_u (p : permutation) (x : N) : N :=
  N.land (foldl (fun r om =>
      N.lor r (if (0 <? om.2)%Z then shl_u (N.land x om.1) (Z.to_N om.2)
               else shr_u (N.land x om.1) (Z.to_N (0 - om.2)))) 0%N (offsets_masks p))
    (search_mask p).

(** sim_hash_index.rs:114-128 [new]. *)
Definition sindex_new_u {Id} `{Countable Id} (room : bool) (fuel num_blocks hamming : nat) : progress (sindex Id) :=
  and_then (perm_create_u room fuel num_blocks hamming) (fun perms =>
  match perms with
  | [] => Panicked
  | _ => Done (SIndex num_blocks hamming ((fun p => Table p ∅) <$> perms) ∅ 0)
  end).
End Unchecked.
