(** Properties C19-C24: minhash signatures.

    [new_with_hasher_and_seed draws n seed] is a hasher of [n] functions made from a seed;
    [draws] is the random number generator and [hash] the 64-bit token hash, both arbitrary. *)
From stdpp Require Import base list.
From Coq Require Import NArith ZArith Reals.
From Flocq Require Import Core BinarySingleNaN.
From Verif Require Import Base Par ParFacts Float Similarity SpecIndex SimilarityFacts
  SimilarityThms MinHasher SpecMinHash MinHasherFacts.
Local Open Scope N_scope.

(** The data of the examples: three functions, tokens are numbers hashed by a multiplication. *)
Definition ex_draws (seed : N) (n j : nat) : N := seed + 1000003 * N.of_nat j.
Definition ex_hash (u : N) : N := u * 11400714819323198485 mod 2 ^ 64.
Definition ex_m : hasher := new_with_hasher ex_draws 3.

(** ** C19 *)
Theorem C19_signature_shape {U} (k : hasher_kind) (hash : U -> N)
    (draws : N -> nat -> nat -> N) (n : nat) (seed : N) (items : list U) :
  exists s, create_signature k hash (new_with_hasher_and_seed draws n seed) items = Some s /\
    length s = n /\ (items = [] -> s = replicate n 0) /\
    forall v, v ∈ s -> v < match k with
                           | MinHasher32 => 2 ^ 31 - 1 | MinHasher64V1 => 2 ^ 61 - 1
                           | MinHasher16 => 2 ^ 16 | MinHasher8 => 2 ^ 8
                           end.
Proof. exact (signature_shape hash draws n seed k items). Qed.

(** The value itself: the least hash over the tokens, truncated to the width of the hasher. *)
Theorem C19_signature_value {U} (k : hasher_kind) (hash : U -> N)
    (draws : N -> nat -> nat -> N) (n : nat) (seed : N) (items : list U) (s : list N)
    (i : nat) (v : N) :
  items ≠ [] ->
  create_signature k hash (new_with_hasher_and_seed draws n seed) items = Some s ->
  s !! i = Some v ->
  exists w, v = w mod 2 ^ width k /\
    is_least w ((fun u => affine k (draws seed n i) (draws seed n (n + i)%nat) (hash u)) <$> items).
Proof.
  intros Hne Hs Hv.
  assert (Hi : (i < n)%nat).
  { destruct (signature_shape hash draws n seed k items) as (s' & Hs' & <- & _).
    rewrite Hs in Hs'. injection Hs' as <-. by apply lookup_lt_Some in Hv. }
  destruct (lookup_least hash k (new_with_hasher_and_seed draws n seed) items s i
    (draws seed n i) (draws seed n (n + i)%nat) v (new_a draws n seed) (new_b draws n seed) Hne Hs)
    as (w & Hw & ->); [..|done|by eauto].
  - simpl. rewrite list_lookup_fmap, lookup_seq_lt by done. done.
  - simpl. rewrite list_lookup_fmap, lookup_seq_lt by done. done.
Qed.

(** The in-place variant. *)
Theorem C19_into_vec {U} (hash : U -> N) (draws : N -> nat -> nat -> N) (n : nat) (seed : N)
    (items : list U) (ret : list N) :
  get_min_hashes_into_vec hash (new_with_hasher_and_seed draws n seed) items ret =
  if decide (length ret = n) then
    match items with
    | [] => Some ret
    | _ => create_signature MinHasher64V1 hash (new_with_hasher_and_seed draws n seed) items
    end
  else None.
Proof.
  case_decide as E.
  - destruct items as [|u items]; [|by apply into_vec_create].
    unfold get_min_hashes_into_vec. rewrite decide_True by done. done.
  - unfold get_min_hashes_into_vec. rewrite decide_False by (intros E'; by apply E). done.
Qed.

Example C19_example :
  create_signature MinHasher32 ex_hash ex_m [5;7;9] = Some [1829297411; 75898558; 469983352] /\
  create_signature MinHasher64V1 ex_hash ex_m [5;7;9]
    = Some [378339608037624841; 67824830574587720; 528311413583178243] /\
  create_signature MinHasher8 ex_hash ex_m [] = Some [0;0;0].
Proof. vm_compute. auto. Qed.
Print Assumptions C19_signature_shape.
Print Assumptions C19_signature_value.
Print Assumptions C19_into_vec.

(** ** C20 *)
Theorem C20_depends_on_set_only {U} (k : hasher_kind) (hash : U -> N)
    (draws : N -> nat -> nat -> N) (n : nat) (seed : N) (xs ys : list U) :
  (forall u, u ∈ xs <-> u ∈ ys) ->
  create_signature k hash (new_with_hasher_and_seed draws n seed) xs =
  create_signature k hash (new_with_hasher_and_seed draws n seed) ys.
Proof. exact (signature_set hash draws n seed k xs ys). Qed.

Theorem C20_same_set_similarity_one {U} (k : hasher_kind) (hash : U -> N)
    (draws : N -> nat -> nat -> N) (n : nat) (seed : N) (xs ys : list U) :
  (forall u, u ∈ xs <-> u ∈ ys) -> (0 < n)%nat -> N.of_nat n <= 2 ^ 53 ->
  compute_similarity k hash (new_with_hasher_and_seed draws n seed) xs ys = Some f64_one.
Proof.
  intros Heq Hn Hb. unfold compute_similarity.
  rewrite <- (signature_set hash draws n seed k xs ys Heq).
  destruct (signature_shape hash draws n seed k xs) as (s & -> & Hl & _). simpl.
  rewrite similarity_sim by done. f_equal. apply sim_one_iff; [done|lia..|done].
Qed.

Example C20_example :
  (forall u, u ∈ [5;7;5;9;9] <-> u ∈ [9;7;5]) /\
  create_signature MinHasher16 ex_hash ex_m [5;7;5;9;9] = Some [56579; 7870; 24696].
Proof. split; [intros u; set_solver|vm_compute; auto]. Qed.
Print Assumptions C20_depends_on_set_only.
Print Assumptions C20_same_set_similarity_one.

(** ** C21 *)
Theorem C21_pointwise_minimum {U} (k : hasher_kind) (hash : U -> N)
    (draws : N -> nat -> nat -> N) (n : nat) (seed : N) (xs ys : list U) (sx sy : list N) :
  k = MinHasher32 \/ k = MinHasher64V1 -> xs ≠ [] -> ys ≠ [] ->
  create_signature k hash (new_with_hasher_and_seed draws n seed) xs = Some sx ->
  create_signature k hash (new_with_hasher_and_seed draws n seed) ys = Some sy ->
  create_signature k hash (new_with_hasher_and_seed draws n seed) (xs ++ ys)
    = Some (zip_with N.min sx sy).
Proof. exact (signature_app hash draws n seed k xs ys sx sy). Qed.

Example C21_example :
  create_signature MinHasher32 ex_hash ex_m [5] = Some [1972046855; 1714208709; 1456370563] /\
  create_signature MinHasher32 ex_hash ex_m [7] = Some [1900672133; 1968795458; 2036918781] /\
  create_signature MinHasher32 ex_hash ex_m ([5] ++ [7])
    = Some [1900672133; 1714208709; 1456370563].
Proof. vm_compute. auto. Qed.
Print Assumptions C21_pointwise_minimum.

(** It fails for the truncating hashers, and for empty inputs. *)
Theorem C21_narrow_refuted :
  forall k, k = MinHasher16 \/ k = MinHasher8 ->
  exists (hash : N -> N) (draws : N -> nat -> nat -> N) (xs ys sx sy : list N),
    xs ≠ [] /\ ys ≠ [] /\
    create_signature k hash (new_with_hasher_and_seed draws 1 0) xs = Some sx /\
    create_signature k hash (new_with_hasher_and_seed draws 1 0) ys = Some sy /\
    create_signature k hash (new_with_hasher_and_seed draws 1 0) (xs ++ ys)
      ≠ Some (zip_with N.min sx sy).
Proof.
  intros k Hk. exists (fun u => u), (fun _ _ j => match j with O => 1 | _ => 0 end),
    [65536], [1], [0], [1].
  destruct Hk as [-> | ->]; vm_compute; repeat split; done.
Qed.

Theorem C21_empty_refuted :
  exists (hash : N -> N) (draws : N -> nat -> nat -> N) (xs sx sy : list N),
    create_signature MinHasher32 hash (new_with_hasher_and_seed draws 1 0) xs = Some sx /\
    create_signature MinHasher32 hash (new_with_hasher_and_seed draws 1 0) [] = Some sy /\
    create_signature MinHasher32 hash (new_with_hasher_and_seed draws 1 0) (xs ++ [])
      ≠ Some (zip_with N.min sx sy).
Proof.
  exists (fun u => u), (fun _ _ j => match j with O => 1 | _ => 0 end), [7], [7], [0].
  vm_compute. repeat split; done.
Qed.
Print Assumptions C21_narrow_refuted.
Print Assumptions C21_empty_refuted.

(** ** C22 *)
Theorem C22_truncation {U} (hash : U -> N)
    (draws : N -> nat -> nat -> N) (n : nat) (seed : N) (items : list U) (s : list N) :
  create_signature MinHasher32 hash (new_with_hasher_and_seed draws n seed) items = Some s ->
  create_signature MinHasher16 hash (new_with_hasher_and_seed draws n seed) items
    = Some ((fun v => v mod 2 ^ 16) <$> s) /\
  create_signature MinHasher8 hash (new_with_hasher_and_seed draws n seed) items
    = Some ((fun v => v mod 2 ^ 8) <$> s).
Proof.
  intros Hs. split.
  - apply (signature_truncates hash draws n seed MinHasher16); auto.
  - apply (signature_truncates hash draws n seed MinHasher8); auto.
Qed.

Theorem C22_similarity_not_lower {U} (k : hasher_kind) (hash : U -> N)
    (draws : N -> nat -> nat -> N) (n : nat) (seed : N) (xs ys : list U) :
  k = MinHasher16 \/ k = MinHasher8 -> 0 < N.of_nat n <= 2 ^ 53 ->
  exists v v',
    compute_similarity MinHasher32 hash (new_with_hasher_and_seed draws n seed) xs ys = Some v /\
    compute_similarity k hash (new_with_hasher_and_seed draws n seed) xs ys = Some v' /\
    f64_ge v' v = true.
Proof. exact (narrow_similarity hash draws n seed k xs ys). Qed.

(** It can be strictly higher: tokens 256 and 0 differ, their 8-bit hashes do not. *)
Example C22_example :
  let m := new_with_hasher_and_seed (fun _ _ j => match j with O => 1 | _ => 0 end) 1 0 in
  compute_similarity MinHasher32 (fun u => u) m [256] [0] = Some (f64_of_N 0) /\
  compute_similarity MinHasher16 (fun u => u) m [256] [0] = Some (f64_of_N 0) /\
  compute_similarity MinHasher8 (fun u => u) m [256] [0] = Some f64_one.
Proof. vm_compute. auto. Qed.
Print Assumptions C22_truncation.
Print Assumptions C22_similarity_not_lower.

(** ** C23 *)
Theorem C23_agreement {U} (k : hasher_kind) (hash : U -> N)
    (draws : N -> nat -> nat -> N) (n : nat) (seed : N) (xs ys : list U) (sx sy : list N)
    (i : nat) :
  k = MinHasher32 \/ k = MinHasher64V1 -> xs ≠ [] -> ys ≠ [] -> (i < n)%nat ->
  create_signature k hash (new_with_hasher_and_seed draws n seed) xs = Some sx ->
  create_signature k hash (new_with_hasher_and_seed draws n seed) ys = Some sy ->
  let h u := affine k (draws seed n i) (draws seed n (n + i)%nat) (hash u) in
  (forall u v, u ∈ xs ++ ys -> v ∈ xs ++ ys -> h u = h v -> u = v) ->
  sx !! i = sy !! i <->
  exists u, u ∈ xs /\ u ∈ ys /\ forall v, v ∈ xs ++ ys -> h u <= h v.
Proof.
  intros Hk Hx Hy Hi Hsx Hsy h Hinj.
  apply (agree_iff_shared hash draws n seed k xs ys sx sy i); try done; simpl.
  - by rewrite list_lookup_fmap, lookup_seq_lt.
  - by rewrite list_lookup_fmap, lookup_seq_lt.
Qed.

(** A shared minimal token makes any two signatures agree, collisions and truncation or not. *)
Theorem C23_shared_minimum {U} (k : hasher_kind) (hash : U -> N)
    (draws : N -> nat -> nat -> N) (n : nat) (seed : N) (xs ys : list U) (sx sy : list N)
    (i : nat) (u : U) :
  (i < n)%nat ->
  create_signature k hash (new_with_hasher_and_seed draws n seed) xs = Some sx ->
  create_signature k hash (new_with_hasher_and_seed draws n seed) ys = Some sy ->
  let h u := affine k (draws seed n i) (draws seed n (n + i)%nat) (hash u) in
  u ∈ xs -> u ∈ ys -> (forall v, v ∈ xs ++ ys -> h u <= h v) ->
  sx !! i = Some (h u mod 2 ^ width k) /\ sy !! i = Some (h u mod 2 ^ width k).
Proof.
  intros Hi Hsx Hsy h Hux Huy Hmin.
  destruct (agree_if_shared hash draws n seed k xs ys sx sy i (draws seed n i)
    (draws seed n (n + i)%nat) u) as [E1 E2]; try done; simpl.
  - by rewrite list_lookup_fmap, lookup_seq_lt.
  - by rewrite list_lookup_fmap, lookup_seq_lt.
  - by rewrite <- E1, E2.
Qed.

Theorem C23_disjoint_never_agree {U} (k : hasher_kind) (hash : U -> N)
    (draws : N -> nat -> nat -> N) (n : nat) (seed : N) (xs ys : list U) (sx sy : list N)
    (i : nat) :
  k = MinHasher32 \/ k = MinHasher64V1 -> xs ≠ [] -> ys ≠ [] -> (i < n)%nat ->
  create_signature k hash (new_with_hasher_and_seed draws n seed) xs = Some sx ->
  create_signature k hash (new_with_hasher_and_seed draws n seed) ys = Some sy ->
  let h u := affine k (draws seed n i) (draws seed n (n + i)%nat) (hash u) in
  (forall u v, u ∈ xs ++ ys -> v ∈ xs ++ ys -> h u = h v -> u = v) ->
  (forall u, u ∈ xs -> u ∉ ys) -> sx !! i ≠ sy !! i.
Proof.
  intros Hk Hx Hy Hi Hsx Hsy h Hinj Hdis E.
  apply (C23_agreement k hash draws n seed xs ys sx sy i Hk Hx Hy Hi Hsx Hsy Hinj) in E
    as (u & Hu & Hu' & _). by apply (Hdis u).
Qed.

Example C23_example :
  let h u := affine MinHasher32 (ex_draws 3 3 0) (ex_draws 3 3 3) (ex_hash u) in
  create_signature MinHasher32 ex_hash ex_m [5;7] = Some [1900672133; 1714208709; 1456370563] /\
  create_signature MinHasher32 ex_hash ex_m [7] = Some [1900672133; 1968795458; 2036918781] /\
  bool_decide (NoDup (h <$> [5;7])) = true /\
  forallb (fun v => h 7 <=? h v) [5;7;7] = true.
Proof. vm_compute. auto. Qed.
Print Assumptions C23_agreement.
Print Assumptions C23_shared_minimum.
Print Assumptions C23_disjoint_never_agree.

(** ** C24 *)
Theorem C24_bulk {U} (k : hasher_kind) (hash : U -> N) (sched : list nat) (m : hasher)
    (batch : list (list U)) :
  bulk_create_signature k hash sched m batch = mapM (create_signature k hash m) batch.
Proof. apply par_map_mapM. Qed.

Theorem C24_compute_similarity {U} (k : hasher_kind) (hash : U -> N)
    (draws : N -> nat -> nat -> N) (n : nat) (seed : N) (xs ys : list U) :
  (0 < n)%nat -> N.of_nat n <= 2 ^ 53 ->
  exists sx sy v,
    create_signature k hash (new_with_hasher_and_seed draws n seed) xs = Some sx /\
    create_signature k hash (new_with_hasher_and_seed draws n seed) ys = Some sy /\
    compute_similarity k hash (new_with_hasher_and_seed draws n seed) xs ys = Some v /\
    (SF2R radix2 v = round radix2 (FLT_exp (-1074) 53) ZnearestE
                       (IZR (Z.of_nat (agreements sx sy)) / IZR (Z.of_nat n)))%R /\
    (0 <= SF2R radix2 v <= 1)%R.
Proof.
  intros Hn Hb.
  destruct (signature_shape hash draws n seed k xs) as (sx & Hsx & Hlx & _).
  destruct (signature_shape hash draws n seed k ys) as (sy & Hsy & Hly & _).
  destruct (similarity_f64 sx sy) as (v & Hv & _ & _ & Hr & H01 & _); [congruence|lia..|].
  exists sx, sy, v. unfold compute_similarity. rewrite Hsx, Hsy. simpl.
  rewrite Hlx in Hr. done.
Qed.

Example C24_example :
  bulk_create_signature MinHasher8 ex_hash [2;0;1;1;0;2]%nat ex_m [[5;7];[];[9]]
    = Some [[133;197;131];[0;0;0];[3;190;120]] /\
  compute_similarity MinHasher32 ex_hash ex_m [5;7] [7]
    = Some (f64_div (f64_of_N 1) (f64_of_N 3)).
Proof. vm_compute. auto. Qed.
Print Assumptions C24_bulk.
Print Assumptions C24_compute_similarity.
