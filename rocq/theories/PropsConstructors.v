(** Property C88: the constructors of MinHashIndex with machine arithmetic. *)
From stdpp Require Import base list gmap.
From Coq Require Import NArith ZArith Reals Lia.
From Flocq Require Import Core BinarySingleNaN.
From Verif Require Import Base Par Float Similarity Container MinHashIndex Constructors.
From Verif Require Import F64Facts ConstructorsFacts CapacityFacts ExampleIndex.
Local Open Scope nat_scope.

(** With overflow checks the constructor panics exactly if the number of hashes does not fit
    into a [usize]; otherwise it builds the index of [new_index]. *)
Theorem C88_checked {T Id} `{Countable Id} (W : nat) (k : container_kind) (nb bw : nat) (th : f64) :
  nb < 2 ^ W ->
  (nb * bw < 2 ^ W ->
     new_index_c W (container k Id) nb bw th = Some (new_index (T := T) (container k Id) nb bw th)) /\
  (2 ^ W <= nb * bw -> new_index_c (T := T) W (container k Id) nb bw th = None).
Proof.
  intros Hn. rewrite new_index_c_spec by done. split; intros Hl.
  - by rewrite decide_True.
  - by rewrite decide_False by lia.
Qed.

(** [usize] of 8 bits: 15 bands of 17 hashes fit, 16 bands of 16 hashes do not. *)
Example C88_checked_example :
  (match new_index_c (T := N) 8 (container KVec N) 15 17 half with
   | Some m => Some (num_hashes m, length (bands m)) | None => None end,
   match new_index_c (T := N) 8 (container KVec N) 16 16 half with Some _ => true | None => false end)
  = (Some (255, 15), false).
Proof. vm_compute. reflexivity. Qed.
Print Assumptions C88_checked.

(** Without overflow checks the constructor always returns. If the number of hashes fits, the
    index is the same. *)
Theorem C88_unchecked {T Id} `{Countable Id} (W : nat) (k : container_kind) (nb bw : nat) (th : f64) :
  nb < 2 ^ W -> nb * bw < 2 ^ W ->
  new_index_u W (container k Id) nb bw th = new_index (T := T) (container k Id) nb bw th.
Proof. exact (new_index_u_spec W (container k Id) nb bw th). Qed.

Example C88_unchecked_example :
  (band_start <$> bands (new_index_u (T := N) 8 (container KVec N) 3 85 half),
   band_end <$> bands (new_index_u (T := N) 8 (container KVec N) 3 85 half),
   num_hashes (new_index_u (T := N) 8 (container KVec N) 3 85 half))
  = ([0; 85; 170], [85; 170; 255], 255).
Proof. vm_compute. reflexivity. Qed.
Print Assumptions C88_unchecked.

(** If it does not fit, the index is useless: after every history it is empty, every insertion
    and every query by signature panics, whatever the signature. *)
Theorem C88_unusable {T} `{!EqDecision T} {Id} `{Countable Id} (W : nat) (k : container_kind)
    (bh : list T -> N) (nb bw : nat) (th : f64) (ops : list (op Id T)) :
  nb < 2 ^ W -> bw < 2 ^ W -> 2 ^ W <= nb * bw ->
  let K := container k Id in
  let m := run K bh (new_index_u W K nb bw th) ops in
  (forall id sig, (insert K bh id sig m).2 = OPanic) /\
  (forall sched ids sigs, ids <> [] -> sigs <> [] -> (par_bulk_insert K bh sched ids sigs m).2 = OPanic) /\
  (forall sched pairs, pairs <> [] -> (par_bulk_insert_pairs K bh sched pairs m).2 = OPanic) /\
  (forall q, query K bh m q = None /\ query_owned K bh m q = None) /\
  (forall order q, query_one K bh order m q = None) /\
  (forall order sort q, query_owned_return_similarity K bh order sort m q = None) /\
  (forall order sort q j, query_top_k K bh order sort m q j = None) /\
  (forall id, get_signature K m id = None).
Proof.
  intros Hn Hb Hl K m. apply broken_calls, run_broken. by apply new_index_u_broken.
Qed.

(** 17 bands of 16 hashes, [usize] of 8 bits: the index expects 16 hashes. The insertion of a
    signature of that length fills the first band and panics at the second; clearing and
    trying again does not help. *)
Example C88_unusable_example :
  let K := container KVec N in
  let m := new_index_u (T := N) 8 K 17 16 half in
  let s := repeat 7%N 16 in
  (num_hashes m, (insert K bhx 1%N s m).2, (fun b => size (hash_table b)) <$> take 3 (bands (insert K bhx 1%N s m).1),
   match query K bhx (run K bhx m [Insert 1%N s; Clear; Insert 2%N s]) s with Some _ => true | None => false end)
  = (16, OPanic, [1; 0; 0], false).
Proof. vm_compute. reflexivity. Qed.
Print Assumptions C88_unusable.

(** [new_with_capacity] builds the same index as [new_index]; it panics exactly if the number of
    hashes does not fit or one of the two capacities cannot be reserved. *)
Theorem C88_with_capacity {T Id} `{Countable Id} (W : nat) (k : container_kind) (room : N -> bool)
    (nb bw : nat) (th : f64) (cap : N) (ratio : f64) :
  nb < 2 ^ W ->
  (nb * bw < 2 ^ W -> room cap = true -> (nb = 0 \/ room (band_capacity W cap ratio) = true) ->
     new_with_capacity_c W (container k Id) room nb bw th cap ratio
     = Some (new_index (T := T) (container k Id) nb bw th)) /\
  (2 ^ W <= nb * bw \/ room cap = false \/ (nb <> 0 /\ room (band_capacity W cap ratio) = false) ->
     new_with_capacity_c (T := T) W (container k Id) room nb bw th cap ratio = None).
Proof.
  intros Hn. rewrite new_with_capacity_c_spec by done. split.
  - intros. by rewrite decide_True.
  - intros Hc. rewrite decide_False; [done|]. intros (H1 & H2 & H3).
    destruct Hc as [Hc|[Hc|[Hc1 Hc2]]]; [lia|congruence|]. destruct H3; congruence.
Qed.

Example C88_with_capacity_example :
  let room c := N.leb c 1000 in
  let make ratio := match new_with_capacity_c (T := N) 10 (container KVec N) room 2 3 half 1000 ratio with
                    | Some m => Some (num_hashes m) | None => None end in
  (make half, make (S754_infinity true)) = (Some 6, None).
Proof. vm_compute. reflexivity. Qed.
Print Assumptions C88_with_capacity.

(** The capacity of a band for a similarity ratio in [0,1]: never above the initial capacity, and
    up to 2^52 within two of [cap * (1 - ratio)]; for larger ratios and NaN it is zero; minus
    infinity asks for the largest number there is. *)
Theorem C88_band_capacity (W : nat) (cap : N) (ratio : f64) :
  (cap < 2 ^ N.of_nat W)%N -> f64_valid ratio = true ->
  let r := SF2R radix2 ratio in
  let c := IZR (Z.of_N cap) in
  (is_finite_SF ratio = true -> (0 <= r <= 1)%R -> (cap <= 2 ^ 53)%N -> (band_capacity W cap ratio <= cap)%N) /\
  (is_finite_SF ratio = true -> (0 <= r <= 1)%R -> (cap <= 2 ^ 52)%N ->
     (c * (1 - r) - 2 < IZR (Z.of_N (band_capacity W cap ratio)) <= c * (1 - r) + 1)%R) /\
  (f64_ge ratio f64_one = true -> band_capacity W cap ratio = 0%N) /\
  (ratio = S754_nan -> band_capacity W cap ratio = 0%N) /\
  (ratio = S754_infinity true -> (0 < cap <= 2 ^ 53)%N -> band_capacity W cap ratio = (2 ^ N.of_nat W - 1)%N).
Proof.
  intros HW Hv r c. repeat match goal with |- _ /\ _ => split end.
  - intros Hf Hr Hc. apply capacity_le with r; [exact Hc|exact HW|repeat split; assumption|exact Hr].
  - intros Hf Hr Hc. apply capacity_close; [exact Hc|exact HW|repeat split; assumption|exact Hr].
  - intros Hge. apply capacity_ratio_ge_one; assumption.
  - intros ->. apply capacity_nan.
  - intros ->. apply capacity_neg_inf.
Qed.

Example C88_band_capacity_example :
  (band_capacity 64 1000 half, band_capacity 64 1000 (f64_of_N 3), band_capacity 64 1001 half,
   band_capacity 64 1000 (f64_div (f64_of_N 3) (f64_of_N 4)))
  = (500, 0, 500, 250)%N.
Proof. vm_compute. reflexivity. Qed.
Print Assumptions C88_band_capacity.

(** The documentation says that with ratio 0.9 a band gets a tenth of the total. *)
Theorem C88_tenth_refuted :
  exists cap : N, (cap mod 10 = 0)%N /\
    (band_capacity 64 cap (f64_div (f64_of_N 9) (f64_of_N 10)) <> cap / 10)%N.
Proof. exists 1000%N. split; [reflexivity|]. vm_compute. congruence. Qed.
Print Assumptions C88_tenth_refuted.
