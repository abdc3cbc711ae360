(** Model of gaoya/src/simhash/permutation.rs. Definitions only. *)
From stdpp Require Import base list.
From Coq Require Import NArith ZArith.
From Verif Require Import Base SimHashBits.

(** permutation.rs:8-16 [Permutation]. *)
Record permutation := Permutation_ {
  offsets_masks : list (N * Z);
  search_mask : N;
  simple_mask : N;
  width : nat;
}.

Section Permutation.
Context (W : nat).

(** permutation.rs:39-44: index of the lowest set bit. On a zero mask the shift overflows
    (a build without overflow checks loops for ever instead): [Panic]. *)
Fixpoint skip_zeros (fuel : nat) (mask : N) (i : nat) : res nat :=
  b ← shl W 1 i;
  if (N.land b mask =? 0)%N then
    match fuel with O => Panic | S fuel' => skip_zeros fuel' mask (i + 1) end
  else Ok i.

(** permutation.rs:46-49: end of the run of ones. *)
Fixpoint skip_ones (fuel : nat) (mask : N) (j : nat) : res nat :=
  if (j <? W)%nat then
    b ← shl W 1 j;
    if (N.land b mask =? 0)%N then Ok j
    else match fuel with O => Panic | S fuel' => skip_ones fuel' mask (j + 1) end
  else Ok j.

(** permutation.rs:36-56: widths and offsets of all masks; [acc] is the running width. *)
Fixpoint layout (acc : nat) (masks : list N) : res (list (nat * Z)) :=
  match masks with
  | [] => Ok []
  | mask :: masks' =>
      i ← skip_zeros W mask 0;
      j ← skip_ones W mask i;
      let acc' := acc + (j - i) in
      rest ← layout acc' masks';
      Ok (((j - i)%nat, (Z.of_nat W - Z.of_nat acc' - Z.of_nat i)%Z) :: rest)
  end.

(** permutation.rs:66-71: the search mask. *)
Definition ones_step (m : N) : res N := s ← shl W m 1; Ok (N.lor s 1).
Definition zeros_step (m : N) : res N := shl W m 1.
Fixpoint repeat_res (n : nat) (f : N -> res N) (x : N) : res N :=
  match n with O => Ok x | S n' => y ← f x; repeat_res n' f y end.
Definition make_search_mask (w : nat) : res N :=
  m ← repeat_res w ones_step 0%N; repeat_res (W - w) zeros_step m.

(** permutation.rs:22-76 [new]. [widths.len() - diff_bits] underflows if [diff_bits] is larger
    (panic); all its arguments in this crate come from [create]. *)
Definition perm_new (diff_bits : nat) (masks choice : list N) : res permutation :=
  lay ← layout 0 masks;
  if (diff_bits <=? length lay)%nat then
    let n := length lay - diff_bits in
    let w := sum_list (fst <$> take n lay) in
    sm ← make_search_mask w;
    Ok (Permutation_ (take n (zip masks (snd <$> lay))) sm (foldl N.lor 0%N choice) w)
  else Panic.

(** permutation.rs:85-93: mask of block [i]. *)
Definition block_mask (num_blocks i : nat) : res N :=
  let start := i * W / num_blocks in
  let stop := (i + 1) * W / num_blocks in
  foldl (fun acc j => m ← acc; b ← shl W 1 j; Ok (N.lor m b)) (Some 0%N)
    (seq start (stop - start)).

(** [Itertools::combinations]: all sub-sequences of length [k], in lexicographic order of the
    positions. *)
Fixpoint combinations {A} (k : nat) (l : list A) : list (list A) :=
  match k, l with
  | O, _ => [[]]
  | S _, [] => []
  | S k', x :: l' => (cons x <$> combinations k' l') ++ combinations k l'
  end.

(** permutation.rs:97-102: the chosen blocks followed by the others. *)
Definition all_blocks (blocks comb : list N) : list N :=
  foldl (fun acc v => if decide (v ∈ acc) then acc else acc ++ [v]) comb blocks.

(** permutation.rs:78-106 [create]; [num_blocks - diff_bits] underflows if [diff_bits] is
    larger (panic; without overflow checks there are no combinations and the caller's [unwrap]
    of the maximal width panics). *)
Definition perm_create (num_blocks diff_bits : nat) : res (list permutation) :=
  blocks ← mapM (block_mask num_blocks) (seq 0 num_blocks);
  if (diff_bits <=? num_blocks)%nat then
    mapM (fun comb => perm_new diff_bits (all_blocks blocks comb) comb)
      (combinations (num_blocks - diff_bits) blocks)
  else Panic.

(** permutation.rs:113-119: one block moved to its place. *)
Definition move_block (x : N) (p : N * Z) : res N :=
  if (0 <? p.2)%Z then shl W (N.land x p.1) (Z.to_nat p.2)
  else shr W (N.land x p.1) (Z.to_nat (0 - p.2)).

(** permutation.rs:108-122 [permute]. *)
Definition permute (p : permutation) (x : N) : res N :=
  r ← foldl (fun acc om => r ← acc; b ← move_block x om; Ok (N.lor r b)) (Some 0%N)
        (offsets_masks p);
  Ok (N.land r (search_mask p)).
End Permutation.
