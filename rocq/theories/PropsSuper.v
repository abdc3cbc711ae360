(** Property theorems C60 and C61: the two SuperMinHash variants. *)
From stdpp Require Import base list.
From Coq Require Import NArith ZArith Lia.
From Verif Require Import Base Float SuperMinHash SpecSuper SuperFloat SuperFacts SuperFacts2 SuperFacts3.
Local Open Scope nat_scope.

Section V1.
Context (shuffle : N -> nat -> list N) (unit1 : N -> nat -> nat -> f32) (m : nat).
Context (Hs : forall t, shuffle t m ≡ₚ (N.of_nat <$> seq 0 m)).
Context (Hu : forall t j, is_unit (unit1 t m j)).
Context (Hm : (N.of_nat m <= 2 ^ 24)%N).
Notation sig := (v1_create_signature shuffle unit1 m).

Theorem C60_one (t : N) : exists s, sig [t] = Ok s /\ length s = m /\
  forall j v, s !! j = Some v -> exists p, shuffle t m !! j = Some p /\
    v = f32_as_u32 (f32_add (unit1 t m j) (f32_of_N p)) /\ (v = p \/ v = p + 1)%N.
Proof. exact (v1_one shuffle unit1 m Hs Hu Hm t). Qed.

Theorem C60_union (ts1 ts2 : list N) : exists s1 s2, sig ts1 = Ok s1 /\ sig ts2 = Ok s2 /\
  sig (ts1 ++ ts2) = Ok (zip_with N.min s1 s2).
Proof. exact (v1_union shuffle unit1 m Hs Hu Hm ts1 ts2). Qed.

Theorem C60_set (ts1 ts2 : list N) : (forall t, t ∈ ts1 <-> t ∈ ts2) -> sig ts1 = sig ts2.
Proof. exact (v1_set shuffle unit1 m Hs Hu Hm ts1 ts2). Qed.

Theorem C60_empty : sig [] = Ok (replicate m 100000000%N).
Proof. exact (v1_empty shuffle unit1 m Hs Hu Hm). Qed.
End V1.

Print Assumptions C60_one.
Print Assumptions C60_union.
Print Assumptions C60_set.
Print Assumptions C60_empty.

Section V2.
Context (unit2 : N -> nat -> nat -> f32) (pick : N -> nat -> nat -> nat) (m : nat).
Context (Hk : forall t j, j < m -> j <= pick t m j < m).
Context (Hu : forall t j, is_unit (unit2 t m j)).
Context (Hm : (N.of_nat m <= 2 ^ 24)%N).
Notation sig := (v2_create_signature unit2 pick m).
Notation slot t := (slot (pick t m) m).

Theorem C61_panic (ts : list N) : (exists s, sig ts = Ok s /\ length s = m) <-> 0 < m.
Proof.
  split; [|exact (v2_ok unit2 pick m Hk Hu Hm ts)]. intros (s & E & _).
  destruct (decide (m = 0)) as [H|H]; [by rewrite v2_zero in E|lia].
Qed.

Theorem C61_empty : 0 < m -> sig [] = Ok (replicate m 100000000%N).
Proof. exact (v2_empty unit2 pick m Hk). Qed.

Theorem C61_one (t : N) : 0 < m -> sig [t] = Ok (0%N :: replicate (m - 1) 100000000%N).
Proof. exact (v2_one unit2 pick m Hk Hu Hm t). Qed.

Theorem C61_first (t : N) (ts : list N) (s : list N) : sig (t :: ts) = Ok s -> s !! 0 = Some 0%N.
Proof. exact (v2_first unit2 pick m Hk Hu Hm t ts s). Qed.

Theorem C61_two (t0 t : N) (s : list N) (c : nat) (v : N) : sig [t0; t] = Ok s -> 0 < c -> s !! c = Some v ->
  exists j, j < m /\ slot t j = Some c /\
    v = f32_as_u32 (f32_add (unit2 t m j) (f32_of_N (N.of_nat j))) /\ (v = N.of_nat j \/ v = N.of_nat j + 1)%N.
Proof.
  intros E Hc Hv. destruct (v2_two unit2 pick m Hk Hu Hm t0 t s c v E Hc Hv) as (j & Hj & Hs & ->).
  exists j. split; [done|]. split; [done|]. split; [done|]. exact (value_rank unit2 m Hu Hm t j Hj).
Qed.

Theorem C61_two_first (t0 t0' t : N) : sig [t0; t] = sig [t0'; t].
Proof. exact (v2_two_first unit2 pick m Hk Hu Hm t0 t0' t). Qed.

Theorem C61_bound (t0 t : N) (ts s : list N) (c : nat) (v : N) :
  sig (t0 :: t :: ts) = Ok s -> s !! c = Some v -> (v <= N.of_nat m)%N.
Proof. exact (v2_bound unit2 pick m Hk Hu Hm t0 t ts s c v). Qed.

Theorem C61_decrease (ts ts' s s' : list N) (c : nat) (v : N) :
  sig ts = Ok s -> sig (ts ++ ts') = Ok s' -> s !! c = Some v ->
  exists v', s' !! c = Some v' /\ (v' <= v)%N.
Proof. exact (v2_decrease unit2 pick m Hk Hu Hm ts ts' s s' c v). Qed.

Theorem C61_origin (ts s : list N) (c : nat) (v : N) : sig ts = Ok s -> s !! c = Some v ->
  v = 100000000%N \/ (c = 0 /\ ts ≠ [] /\ v = 0%N) \/
  exists i t j, 1 <= i /\ ts !! i = Some t /\ j < m /\ slot t j = Some c /\
    v = f32_as_u32 (f32_add (unit2 t m j) (f32_of_N (N.of_nat j))) /\ (v = N.of_nat j \/ v = N.of_nat j + 1)%N.
Proof.
  intros E Hv. destruct (v2_origin unit2 pick m Hk Hu Hm ts s c v E Hv)
    as [H|[H|(i & t & j & H1 & H2 & H3 & H4 & ->)]]; [by left|by right; left|].
  right. right. exists i, t, j. split; [done|]. split; [done|]. split; [done|]. split; [done|].
  split; [done|]. exact (value_rank unit2 m Hu Hm t j H3).
Qed.
End V2.

Print Assumptions C61_panic.
Print Assumptions C61_empty.
Print Assumptions C61_one.
Print Assumptions C61_first.
Print Assumptions C61_two.
Print Assumptions C61_two_first.
Print Assumptions C61_bound.
Print Assumptions C61_decrease.
Print Assumptions C61_origin.

(** ** Concrete generators *)
Definition eighths (n : N) : f32 := binary_normalize 24 128 (Z.of_N n) (-3) false.
(** The largest f32 a uniform draw with 23 random bits returns. *)
Definition top_unit : f32 := binary_normalize 24 128 8388607 (-23) false.

Lemma eighths_unit n : (n < 8)%N -> is_unit (eighths n).
Proof.
  intros Hn. assert (H : (n = 0 \/ n = 1 \/ n = 2 \/ n = 3 \/ n = 4 \/ n = 5 \/ n = 6 \/ n = 7)%N) by lia.
  destruct H as [H|[H|[H|[H|[H|[H|[H|H]]]]]]]; subst n; (split; [reflexivity|]; split; [reflexivity|]; split; [reflexivity|discriminate]).
Qed.

Definition ex_shuffle (t : N) (m : nat) : list N :=
  if (t =? 1)%N then rev (N.of_nat <$> seq 0 m) else N.of_nat <$> seq 0 m.
Definition ex_unit (t : N) (m j : nat) : f32 := eighths ((t + N.of_nat j) mod 8).
Lemma ex_shuffle_ok m t : ex_shuffle t m ≡ₚ (N.of_nat <$> seq 0 m).
Proof. unfold ex_shuffle. destruct (t =? 1)%N; [symmetry; apply Permutation_rev|done]. Qed.
Lemma ex_unit_ok m t j : is_unit (ex_unit t m j).
Proof. apply eighths_unit. apply N.mod_lt. done. Qed.

(** Token 0 has the identity permutation, token 1 the reversed one. *)
Example C60_example :
  v1_create_signature ex_shuffle ex_unit 4 [0; 1; 0]%N = Ok [0; 1; 1; 0]%N /\
  v1_create_signature ex_shuffle ex_unit 4 [1; 0]%N = Ok [0; 1; 1; 0]%N /\
  v1_create_signature ex_shuffle ex_unit 4 [1]%N = Ok [3; 2; 1; 0]%N.
Proof. vm_compute. split_and!; reflexivity. Qed.

(** The signature of a single token is not always a permutation of 0..m: the sum of a draw and
    a position is rounded. *)
Theorem C60_permutation_refuted : exists (shuffle : N -> nat -> list N) (unit1 : N -> nat -> nat -> f32) (m : nat) (t : N) s,
  (forall t, shuffle t m ≡ₚ (N.of_nat <$> seq 0 m)) /\ (forall t j, is_unit (unit1 t m j)) /\
  v1_create_signature shuffle unit1 m [t] = Ok s /\ ~ s ≡ₚ (N.of_nat <$> seq 0 m).
Proof.
  exists (fun _ m => N.of_nat <$> seq 0 m), (fun _ _ _ => top_unit), 3, 0%N, [0; 1; 3]%N.
  split; [done|]. split; [intros _ _; split; [reflexivity|]; split; [reflexivity|]; split; [reflexivity|discriminate]|].
  split; [vm_compute; reflexivity|]. intros H.
  assert (H3 : (3%N) ∈ (N.of_nat <$> seq 0 3)) by (rewrite <- H; set_solver).
  apply elem_of_list_fmap in H3 as (x & E & Hx). apply elem_of_seq in Hx. lia.
Qed.
Print Assumptions C60_permutation_refuted.

Definition table {A} (d : A) (l : list A) (j : nat) : A := default d (l !! j).
(** Positions drawn by tokens 0, 1, 2 for four hashes. *)
Definition ex_picks (t : N) (j : nat) : nat :=
  match t with
  | 0%N => table 3 [1; 3; 3; 3] j
  | 1%N => table 3 [3; 1; 2; 3] j
  | _ => table 3 [3; 2; 3; 3] j
  end.
Definition ex_pick (t : N) (m j : nat) : nat := if (m =? 4)%nat then ex_picks t j else j.
Definition ex_unit2 (t : N) (m j : nat) : f32 :=
  eighths (match t with
           | 0%N => table 0%N [6; 0; 3; 3]%N j
           | 1%N => table 0%N [0; 5; 4; 2]%N j
           | _ => table 0%N [7; 4; 6; 4]%N j
           end).
Lemma ex_pick_ok m t j : j < m -> j <= ex_pick t m j < m.
Proof.
  intros Hj. unfold ex_pick. destruct (Nat.eqb_spec m 4) as [->|]; [|lia]. unfold ex_picks.
  do 4 (destruct j as [|j]; [destruct t as [|[]]; cbn; lia|]). lia.
Qed.
Lemma ex_unit2_ok m t j : is_unit (ex_unit2 t m j).
Proof.
  unfold ex_unit2. apply eighths_unit.
  do 4 (destruct j as [|j]; [destruct t as [|[]]; done|]). destruct t as [|[]]; done.
Qed.

Example C61_example :
  v2_create_signature ex_unit2 ex_pick 4 [0]%N = Ok [0; 100000000; 100000000; 100000000]%N /\
  v2_create_signature ex_unit2 ex_pick 4 [0; 1]%N = Ok [0; 1; 2; 0]%N /\
  v2_create_signature ex_unit2 ex_pick 4 [2; 1]%N = Ok [0; 1; 2; 0]%N /\
  v2_create_signature ex_unit2 ex_pick 4 [0; 2]%N = Ok [0; 3; 1; 0]%N /\
  v2_create_signature ex_unit2 ex_pick 4 [0; 1; 2]%N = Ok [0; 1; 2; 0]%N.
Proof. vm_compute. split_and!; reflexivity. Qed.

(** The signature depends on the order of the tokens. *)
Theorem C61_order_refuted : exists unit2 pick (m : nat) ts ts',
  (forall t j, j < m -> j <= pick t m j < m) /\ (forall t j, is_unit (unit2 t m j)) /\
  ts ≡ₚ ts' /\ v2_create_signature unit2 pick m ts ≠ v2_create_signature unit2 pick m ts'.
Proof.
  exists ex_unit2, ex_pick, 4, [1; 2]%N, [2; 1]%N. split; [apply ex_pick_ok|]. split; [apply ex_unit2_ok|].
  split; [by apply perm_swap|]. vm_compute. discriminate.
Qed.

(** A repeated token changes the signature. *)
Theorem C61_duplicate_refuted : exists unit2 pick (m : nat) (t : N),
  (forall t j, j < m -> j <= pick t m j < m) /\ (forall t j, is_unit (unit2 t m j)) /\
  v2_create_signature unit2 pick m [t] ≠ v2_create_signature unit2 pick m [t; t].
Proof.
  exists ex_unit2, ex_pick, 4, 1%N. split; [apply ex_pick_ok|]. split; [apply ex_unit2_ok|].
  vm_compute. discriminate.
Qed.

(** The early stop can skip a smaller value: the signature is not the componentwise minimum of
    what the tokens after the first give on their own. *)
Theorem C61_minimum_refuted : exists unit2 pick (m : nat) (t0 t1 t2 : N) s s1 s2,
  (forall t j, j < m -> j <= pick t m j < m) /\ (forall t j, is_unit (unit2 t m j)) /\
  v2_create_signature unit2 pick m [t0; t1; t2] = Ok s /\
  v2_create_signature unit2 pick m [t0; t1] = Ok s1 /\
  v2_create_signature unit2 pick m [t0; t2] = Ok s2 /\ s ≠ zip_with N.min s1 s2.
Proof.
  exists ex_unit2, ex_pick, 4, 0%N, 1%N, 2%N, [0; 1; 2; 0]%N, [0; 1; 2; 0]%N, [0; 3; 1; 0]%N.
  split; [apply ex_pick_ok|]. split; [apply ex_unit2_ok|].
  split; [vm_compute; reflexivity|]. split; [vm_compute; reflexivity|]. split; [vm_compute; reflexivity|]. done.
Qed.
Print Assumptions C61_order_refuted.
Print Assumptions C61_duplicate_refuted.
Print Assumptions C61_minimum_refuted.
