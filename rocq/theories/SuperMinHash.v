(** Model of gaoya/src/minhash/super_min_hash.rs (a private module, marked experimental).
    Definitions only.

    A token is represented by the 64-bit hash the generator is seeded with. The generator is
    external: [shuffle seed m] is the shuffled list 0..m, [unit1 seed m j] and [unit2 seed m j]
    the j-th f32 drawn from 0..1, [pick seed m j] the j-th position drawn from j..m. Below 2^32
    hashes; the counters of [b] are unbounded. *)
From stdpp Require Import base list.
From Coq Require Import NArith ZArith.
From Verif Require Import Base Float.

Definition f32_add : f32 -> f32 -> f32 := SFadd 24 128.
Definition f32_lt (x y : f32) : bool := SFltb x y.
(** [x.min(y)]: a NaN operand is ignored. *)
Definition f32_min (x y : f32) : f32 :=
  match x with S754_nan => y | _ => if f32_lt y x then y else x end.
(** [x as u32], [x as usize]. *)
Definition f32_as_u32 (x : f32) : N := f64_as_unsigned (2 ^ 32 - 1) x.
Definition f32_as_usize (x : f32) : N := f64_as_unsigned (2 ^ 64 - 1) x.

(** super_min_hash.rs:42 and 90: the literal 99999999f32. *)
Definition initial : f32 := f32_of_N 99999999.

(** ** SuperMinHasher32V1 *)
Section V1.
Context (shuffle : N -> nat -> list N) (unit1 : N -> nat -> nat -> f32).

(** super_min_hash.rs:44-55: the body of the loop for one token; cell [j] is written by round
    [j] only. *)
Definition v1_token (m : nat) (minhash : list f32) (seed : N) : res (list f32) :=
  mapM (fun j => x ← minhash !! j; pj ← shuffle seed m !! j;
                 Ok (f32_min x (f32_add (unit1 seed m j) (f32_of_N pj)))) (seq 0 m).

(** super_min_hash.rs:37-58 [create_signature]. *)
Definition v1_create_signature (m : nat) (tokens : list N) : res (list N) :=
  minhash ← foldl (fun acc seed => h ← acc; v1_token m h seed) (Ok (replicate m initial)) tokens;
  Ok (f32_as_u32 <$> minhash).
End V1.

(** ** SuperMinHash32V2 *)

(** super_min_hash.rs:90-97: the local variables. *)
Record v2_state := V2 {
  v2_h : list f32;
  v2_a : nat;
  v2_q : list nat;
  v2_p : list nat;
  v2_b : list Z;
}.

(** super_min_hash.rs:90-97: with no hashes [m - 1] underflows. *)
Definition v2_start (m : nat) : res v2_state :=
  match m with
  | O => Panic
  | S m' => Ok (V2 (replicate m initial) m' (replicate m 0) (replicate m 0)
                   (replicate m' (-1)%Z ++ [Z.of_nat m]))
  end.

(** super_min_hash.rs:126-128: [while b[a] == 0 { a -= 1 }]; at 0 the subtraction underflows. *)
Fixpoint v2_lower (b : list Z) (a : nat) : res nat :=
  x ← b !! a;
  if (x =? 0)%Z then match a with O => Panic | S a' => v2_lower b a' end else Ok a.

Section V2.
Context (unit2 : N -> nat -> nat -> f32) (pick : N -> nat -> nat -> nat).

(** super_min_hash.rs:108-111 and 112-115: [if q[x] != i { q[x] = i; p[x] = x }]. *)
Definition v2_touch (i x : nat) (q p : list nat) : res (list nat * list nat) :=
  qx ← q !! x; px ← p !! x;
  Ok (if (qx =? i)%nat then (q, p) else (<[x := i]> q, <[x := x]> p)).

(** super_min_hash.rs:106-131: one round of the inner loop. *)
Definition v2_round (m i : nat) (seed : N) (j : nat) (s : v2_state) : res v2_state :=
  let r := unit2 seed m j in
  let k := pick seed m j in
  qp ← v2_touch i j (v2_q s) (v2_p s);
  qp ← v2_touch i k qp.1 qp.2;
  let q := qp.1 in let p := qp.2 in
  pj ← p !! j; pk ← p !! k;
  let p := <[k := pj]> (<[j := pk]> p) in
  c ← p !! j;
  hc ← v2_h s !! c;
  let rpj := f32_add r (f32_of_N (N.of_nat j)) in
  if f32_lt rpj hc then
    let j2 := N.to_nat (N.min (f32_as_usize hc) (N.of_nat (m - 1))) in
    let h := <[c := rpj]> (v2_h s) in
    if (j <? j2)%nat then
      bj2 ← v2_b s !! j2;
      let b := <[j2 := (bj2 - 1)%Z]> (v2_b s) in
      bj ← b !! j;
      let b := <[j := (bj + 1)%Z]> b in
      a ← v2_lower b (v2_a s);
      Ok (V2 h a q p b)
    else Ok (V2 h (v2_a s) q p (v2_b s))
  else Ok (V2 (v2_h s) (v2_a s) q p (v2_b s)).

(** super_min_hash.rs:105-132: [while j <= a]; [a] never grows, so [m] rounds are enough
    (running out of rounds would give [None]). *)
Fixpoint v2_while (fuel m i : nat) (seed : N) (j : nat) (s : v2_state) : res v2_state :=
  if (j <=? v2_a s)%nat then
    match fuel with
    | O => None
    | S fuel' => s' ← v2_round m i seed j s; v2_while fuel' m i seed (S j) s'
    end
  else Ok s.

(** super_min_hash.rs:99-133: the loop over the numbered tokens. *)
Fixpoint v2_tokens (m i : nat) (tokens : list N) (s : v2_state) : res v2_state :=
  match tokens with
  | [] => Ok s
  | seed :: tokens' => s' ← v2_while m m i seed 0 s; v2_tokens m (S i) tokens' s'
  end.

(** super_min_hash.rs:85-135 [create_signature]. *)
Definition v2_create_signature (m : nat) (tokens : list N) : res (list N) :=
  s ← v2_start m; s ← v2_tokens m 0 tokens s; Ok (f32_as_u32 <$> v2_h s).
End V2.
