(** Properties C28-C38: simhash. The width [W] is any number above 1; the crate uses 64 and 128.
    [sspec_map ops] is the stored signature of every id. *)
From stdpp Require Import base list gmap fin_maps fin_sets.
From Coq Require Import NArith ZArith Lia Factorial.
From Verif Require Import Base Float Par ParFacts SimHashBits Permutation SimHashIndex SimHash SpecSimHash
  SpecIndex SortFacts BitsFacts PermutationFacts SimHashIndexFacts SimHashFacts.
Local Open Scope nat_scope.

(** A history with a replaced signature (id 2), 64 bits. *)
Definition ex_sops : list (sop N) :=
  [SInsert 1 1023; SInsert 2 0; SParBulkInsert [1;0;5;1]%nat [3;4;5] [4095; 12345678901234567890];
   SInsert 2 65535; SParBulkInsertPairs [] [(6, 1024); (3, 1535)]]%N.
Lemma ex_sops_fit : Forall (sop_fits 64) ex_sops.
Proof. repeat constructor. Qed.

(** ** C28 *)
Theorem C28_query_exact {Id} `{Countable Id} (W nb d : nat) (ops : list (sop Id)) (q : N) :
  1 < W -> d <= nb <= W -> Forall (sop_fits W) ops -> (q < 2 ^ N.of_nat W)%N ->
  exists m S, safter W nb d ops = Some m /\ squery m q = Some S /\ squery_owned m q = Some S /\
    forall id, id ∈ S <-> exists s, sspec_map ops !! id = Some s /\ hamming W q s < d.
Proof.
  intros HW Hd Hops Hq. destruct (safter_inv W nb d ops HW Hd Hops) as (m & Em & Hm).
  destruct (squery_exact W nb d (sspec_map ops) m q HW Hd Hm Hq) as (S & ES & HS).
  exists m, S. auto.
Qed.

Example C28_example : Forall (sop_fits 64) ex_sops /\ (1027 < 2 ^ N.of_nat 64)%N /\
  (m ← safter 64 6 3 ex_sops; elements <$> squery m 1027%N) = Some [6]%N /\
  (m ← safter 64 6 4 ex_sops; elements <$> squery m 511%N) = Some [1; 3]%N /\
  map (fun id => hamming 64 511 <$> (sspec_map ex_sops !! id)) [1;2;3;4;5;6]%N
    = [Some 1; Some 7; Some 1; Some 33; None; Some 10].
Proof. split; [exact ex_sops_fit|]. vm_compute. split_and!; reflexivity. Qed.
Print Assumptions C28_query_exact.

(** ** C29 *)
Theorem C29_boundary {Id} `{Countable Id} (W nb d : nat) (ops : list (sop Id)) (q : N) id s :
  1 < W -> d <= nb <= W -> Forall (sop_fits W) ops -> (q < 2 ^ N.of_nat W)%N ->
  sspec_map ops !! id = Some s -> hamming W q s = d ->
  exists m S, safter W nb d ops = Some m /\ squery m q = Some S /\ id ∉ S.
Proof.
  intros HW Hd Hops Hq Hs Hh.
  destruct (C28_query_exact W nb d ops q HW Hd Hops Hq) as (m & S & Em & ES & _ & HS).
  exists m, S. split; [done|]. split; [done|]. intros (s' & Hs' & Hlt)%HS.
  rewrite Hs in Hs'. injection Hs' as <-. lia.
Qed.

Theorem C29_distance_zero {Id} `{Countable Id} (W nb : nat) (ops : list (sop Id)) (q : N) :
  1 < W -> nb <= W -> Forall (sop_fits W) ops -> (q < 2 ^ N.of_nat W)%N ->
  exists m, safter W nb 0 ops = Some m /\ squery m q = Some ∅.
Proof.
  intros HW Hd Hops Hq.
  destruct (C28_query_exact W nb 0 ops q HW ltac:(lia) Hops Hq) as (m & S & Em & ES & _ & HS).
  exists m. split; [done|]. rewrite ES. f_equal. apply set_eq. intros id. rewrite HS. split.
  - intros (s & _ & Hlt). lia.
  - set_solver.
Qed.

(** The documented bound [<=] is not met, even for an identical signature. *)
Theorem C29_documented_bound_refuted :
  exists (ops : list (sop N)) (q : N) m S id s d, d = 3 /\ safter 64 6 d ops = Some m /\
    squery m q = Some S /\ sspec_map ops !! id = Some s /\ hamming 64 q s <= d /\ id ∉ S.
Proof.
  destruct (C29_boundary 64 6 3 [SInsert 1%N 7%N] 0%N 1%N 7%N) as (m & S & Em & ES & Hn);
    [lia|lia|repeat constructor|reflexivity|reflexivity|reflexivity|].
  exists [SInsert 1%N 7%N], 0%N, m, S, 1%N, 7%N, 3. split_and!; try done.
Qed.

Theorem C29_identical_refuted :
  exists (ops : list (sop N)) m S, safter 64 6 0 ops = Some m /\ squery m 7 = Some S /\
    sspec_map ops !! 1%N = Some 7%N /\ 1%N ∉ S.
Proof.
  destruct (C29_distance_zero 64 6 [SInsert 1%N 7%N] 7%N) as (m & Em & ES);
    [lia|lia|repeat constructor|reflexivity|].
  exists [SInsert 1%N 7%N], m, ∅. split_and!; try done.
Qed.
Print Assumptions C29_boundary.
Print Assumptions C29_distance_zero.
Print Assumptions C29_documented_bound_refuted.
Print Assumptions C29_identical_refuted.

(** ** C30 *)
Theorem C30_query_one {Id} `{Countable Id} (W nb d : nat) (ops : list (sop Id)) (q : N)
    (order : gset Id -> list Id) :
  1 < W -> d <= nb <= W -> Forall (sop_fits W) ops -> (q < 2 ^ N.of_nat W)%N -> is_order order ->
  exists m r, safter W nb d ops = Some m /\ squery_one order m q = Some r /\
    match r with
    | None => forall id s, sspec_map ops !! id = Some s -> d <= hamming W q s
    | Some (id, k) => exists s, sspec_map ops !! id = Some s /\ k = hamming W q s /\ k < d /\
        forall id' s', sspec_map ops !! id' = Some s' -> k <= hamming W q s'
    end.
Proof.
  intros HW Hd Hops Hq Ho. destruct (safter_inv W nb d ops HW Hd Hops) as (m & Em & Hm).
  destruct (squery_one_spec W nb d (sspec_map ops) m q order HW Hd Hm Hq Ho) as (r & Er & Hr).
  exists m, r. auto.
Qed.

(** Ids 1 and 3 tie; the iteration order decides. *)
Example C30_example : is_order (Id := N) elements /\ is_order (Id := N) (fun s => reverse (elements s)) /\
  (m ← safter 64 6 4 ex_sops; squery_one elements m 511%N) = Some (Some (1%N, 1)) /\
  (m ← safter 64 6 4 ex_sops; squery_one (fun s => reverse (elements s)) m 511%N) = Some (Some (3%N, 1)) /\
  (m ← safter 64 6 4 ex_sops; squery_one elements m 0%N) = Some (Some (6%N, 1)) /\
  (m ← safter 64 6 4 ex_sops; squery_one elements m 72057589742960640%N) = Some None.
Proof.
  split; [by intros s|]. split; [intros s; apply reverse_Permutation|]. vm_compute. split_and!; reflexivity.
Qed.
Print Assumptions C30_query_one.

(** ** C31 *)
Theorem C31_query_return_distance {Id} `{Countable Id} (W nb d : nat) (ops : list (sop Id)) (q : N)
    (order : gset Id -> list Id) (sort : list (Id * nat) -> list (Id * nat)) :
  1 < W -> d <= nb <= W -> Forall (sop_fits W) ops -> (q < 2 ^ N.of_nat W)%N -> is_order order ->
  is_sort_by_distance sort ->
  exists m l, safter W nb d ops = Some m /\ squery_return_distance order sort m q = Some l /\
    NoDup l.*1 /\
    (forall id k, (id, k) ∈ l <->
       exists s, sspec_map ops !! id = Some s /\ k = hamming W q s /\ k < d) /\
    forall i j a b, i < j -> l !! i = Some a -> l !! j = Some b -> a.2 <= b.2.
Proof.
  intros HW Hd Hops Hq Ho Hs. destruct (safter_inv W nb d ops HW Hd Hops) as (m & Em & Hm).
  destruct (squery_return_distance_spec W nb d (sspec_map ops) m q order sort HW Hd Hm Hq Ho Hs)
    as (l & El & Hl).
  exists m, l. auto.
Qed.

Theorem C31_bulk_queries {Id} `{Countable Id} (m : sindex Id) (qs : list N) (sched : list nat)
    (order : gset Id -> list Id) (sort : list (Id * nat) -> list (Id * nat)) :
  spar_bulk_query sched m qs = mapM (squery m) qs /\
  spar_bulk_query_return_distance order sort sched m qs
    = mapM (squery_return_distance order sort m) qs.
Proof. split; apply par_map_mapM. Qed.

Definition sort_nat : list (N * nat) -> list (N * nat) := isort (fun a b => a.2 <=? b.2).
Lemma sort_nat_ok : is_sort_by_distance sort_nat.
Proof.
  intros l. split; [apply isort_perm|]. intros i j a b Hij Ha Hb. apply Nat.leb_le.
  revert Ha Hb. apply (ordered_lookup (fun a b : N * nat => a.2 <=? b.2)); [|done].
  apply (isort_ordered _ (fun _ => True)); [| |by apply Forall_true].
  - intros x y _ _ E. apply Nat.leb_le. apply Nat.leb_gt in E. lia.
  - intros x y z _ _ _ E1 E2. apply Nat.leb_le in E1, E2. apply Nat.leb_le. lia.
Qed.

Example C31_example : is_sort_by_distance sort_nat /\
  (m ← safter 64 8 8 ex_sops; squery_return_distance elements sort_nat m 511%N)
    = Some [(1, 1%nat); (3, 1%nat); (2, 7%nat)]%N /\
  (m ← safter 64 8 8 ex_sops; spar_bulk_query_return_distance elements sort_nat [1;0;1]%nat m [1024; 511]%N)
    = Some [[(6, 0%nat)]; [(1, 1%nat); (3, 1%nat); (2, 7%nat)]]%N.
Proof. split; [exact sort_nat_ok|]. vm_compute. split_and!; reflexivity. Qed.
Print Assumptions C31_query_return_distance.
Print Assumptions C31_bulk_queries.

(** ** C32. In every state. *)
Theorem C32_bulk_insert {Id} `{Countable Id} (sched : list nat) (ids : list Id) (sigs : list N)
    (m : sindex Id) :
  spar_bulk_insert sched ids sigs m = foldl (fun m p => sinsert p.1 p.2 m) m (zip ids sigs).
Proof. exact (spar_bulk_insert_eq sched ids sigs m). Qed.

Theorem C32_bulk_insert_pairs {Id} `{Countable Id} (sched : list nat) (ps : list (Id * N))
    (m : sindex Id) :
  spar_bulk_insert_pairs sched ps m = foldl (fun m p => sinsert p.1 p.2 m) m ps.
Proof. exact (spar_bulk_insert_pairs_eq sched ps m). Qed.

Example C32_example :
  (m ← safter 64 6 3 [SInsert 7 1; SParBulkInsert [3;1;1;0]%nat [7; 8; 9] [2; 3]]%N;
   Some (map_to_list (s_signatures m), length (hash_tables m))) = Some ([(7,2); (8,3)]%N, 20).
Proof. vm_compute. reflexivity. Qed.
Print Assumptions C32_bulk_insert.
Print Assumptions C32_bulk_insert_pairs.

(** ** C33 *)
Theorem C33_size {Id} `{Countable Id} (W nb d : nat) (ops : list (sop Id)) :
  1 < W -> d <= nb <= W -> Forall (sop_fits W) ops ->
  exists m, safter W nb d ops = Some m /\ ssize m = 0.
Proof.
  intros HW Hd Hops. destruct (safter_inv W nb d ops HW Hd Hops) as (m & Em & Hm).
  exists m. split; [done|]. exact (inv_size _ _ _ _ _ Hm).
Qed.

Theorem C33_size_counts_documents_refuted :
  exists (ops : list (sop N)) m, safter 64 6 3 ops = Some m /\ ssize m ≠ size (sspec_map ops).
Proof.
  destruct (C33_size 64 6 3 ex_sops ltac:(lia) ltac:(lia) ex_sops_fit) as (m & Em & Hs).
  exists ex_sops, m. split; [done|]. rewrite Hs. vm_compute. discriminate.
Qed.
Print Assumptions C33_size.
Print Assumptions C33_size_counts_documents_refuted.

(** ** C34 *)
Theorem C34_blocks (W nb : nat) : 0 < nb <= W ->
  (forall i, i < nb -> exists m, block_mask W nb i = Some m /\
     forall j, bit m j = true <-> in_block W nb i j) /\
  (forall i, i < nb -> exists j, in_block W nb i j) /\
  (forall i j, i < nb -> in_block W nb i j -> j < W) /\
  (forall j, j < W -> exists i, i < nb /\ in_block W nb i j) /\
  (forall i i' j, i < nb -> i' < nb -> in_block W nb i j -> in_block W nb i' j -> i = i').
Proof. exact (block_facts W nb). Qed.

(** The number of tables is the binomial coefficient; the tables are exactly those of the
    [nb - d]-element sets of blocks; signatures at distance at most [d] share a bucket key. *)
Theorem C34_create (W nb d : nat) : 1 < W -> d <= nb <= W ->
  exists perms, perm_create W nb d = Some perms /\
    length perms * (fact (nb - d) * fact d) = fact nb /\
    (forall p, p ∈ perms -> exists I, NoDup I /\ length I = nb - d /\ Forall (fun i => i < nb) I /\
       forall j, bit (simple_mask p) j = true <-> exists i, i ∈ I /\ in_block W nb i j) /\
    (forall I, I `sublist_of` seq 0 nb -> length I = nb - d -> exists p, p ∈ perms /\
       forall j, bit (simple_mask p) j = true <-> exists i, i ∈ I /\ in_block W nb i j) /\
    forall x y, hamming W x y <= d ->
      exists p, p ∈ perms /\ N.land x (simple_mask p) = N.land y (simple_mask p).
Proof.
  intros HW [Hd Hn]. destruct (perm_create_spec W nb d HW Hn Hd) as (perms & E & HF).
  exists perms. split; [done|].
  assert (Hget : forall I, I ∈ combinations (nb - d) (seq 0 nb) -> exists p, p ∈ perms /\ perm_ok W nb I p).
  { intros I [i HI]%elem_of_list_lookup.
    destruct (Forall2_lookup_l _ _ _ _ _ HF HI) as (p & Hp & Hok). exists p.
    split; [by eapply elem_of_list_lookup_2|done]. }
  split; [|split; [|split]].
  - pose proof (combinations_count (nb - d) (seq 0 nb)) as Hc. rewrite seq_length in Hc.
    rewrite <- (Forall2_length _ _ _ HF).
    replace (fact d) with (fact (nb - (nb - d))) by (f_equal; lia). apply Hc. lia.
  - intros p [i Hp]%elem_of_list_lookup.
    destruct (Forall2_lookup_r _ _ _ _ _ HF Hp) as (I & HI & _ & Hm & _).
    apply elem_of_list_lookup_2, elem_of_combinations in HI as [Hs Hl].
    destruct (sublist_bound nb I Hs). by exists I.
  - intros I Hs Hl. destruct (Hget I) as (p & Hp & _ & Hm & _); [by apply elem_of_combinations|].
    by exists p.
  - intros x y Hh. destruct (agreeing_blocks W nb d x y HW Hn Hd Hh) as (I & HI & Hag).
    destruct (Hget I HI) as (p & Hp & _ & Hm & _). exists p. split; [done|].
    apply land_agree. intros j (i & Hi & Hj)%Hm. eauto.
Qed.

Theorem C34_create_fails {Id} `{Countable Id} (W nb d : nat) : nb < d \/ W < nb ->
  perm_create W nb d = None /\ sindex_new (Id := Id) W nb d = None.
Proof.
  intros Hbad. assert (E : perm_create W nb d = None).
  { destruct Hbad; [by apply perm_create_underflow|by apply perm_create_too_many]. }
  split; [done|]. unfold sindex_new. by rewrite E.
Qed.

Example C34_example :
  map (block_mask 64 5) (seq 0 5)
    = [Some 4095; Some 33550336; Some 274844352512; Some 2251524935778304; Some 18444492273895866368]%N /\
  (length <$> perm_create 64 6 3) = Some 20 /\
  (map simple_mask <$> perm_create 64 3 1) =
    Some [4398046511103; 18446739675665137663; 18446744073707454464]%N /\
  hamming 64 5 6 = 2 /\ perm_create 64 2 3 = None /\ perm_create 16 17 3 = None.
Proof. vm_compute. split_and!; reflexivity. Qed.
Print Assumptions C34_blocks.
Print Assumptions C34_create.
Print Assumptions C34_create_fails.

(** ** C35 *)
Theorem C35_permute (W nb d : nat) (perms : list permutation) (p : permutation) :
  1 < W -> d <= nb <= W -> perm_create W nb d = Some perms -> p ∈ perms ->
  width p = length (filter (fun j => bit (simple_mask p) j = true) (seq 0 W)) /\
  (forall j, bit (search_mask p) j = true <-> W - width p <= j < W) /\
  (forall x, exists r, permute W p x = Some r /\ forall t, bit r t = true -> W - width p <= t < W) /\
  forall x y, permute W p x = permute W p y <->
    N.land x (simple_mask p) = N.land y (simple_mask p).
Proof.
  intros HW [Hd Hn] E Hp. destruct (perm_create_spec W nb d HW Hn Hd) as (perms' & E' & HF).
  rewrite E in E'. injection E' as <-. apply elem_of_list_lookup in Hp as [i Hp].
  destruct (Forall2_lookup_r _ _ _ _ _ HF Hp) as (I & HI & Hok).
  apply elem_of_list_lookup_2, elem_of_combinations in HI as [Hs _].
  destruct (perm_ok_facts W nb I p HW Hn Hs Hok) as (H1 & H2 & _ & H4 & H5). auto.
Qed.

(** Blocks 0 and 2 of three blocks of 16 bits: bits 0-4 and 10-15. *)
Example C35_example :
  match perm_create 16 3 1 with
  | Some [_; p; _] => Some (N.of_nat (width p), simple_mask p, search_mask p,
      permute 16 p 64539, permute 16 p 65531, permute 16 p 64538)%N
  | _ => None
  end = Some (11, 64543, 65504, Some 57312, Some 57312, Some 55264)%N.
Proof. vm_compute. reflexivity. Qed.
Print Assumptions C35_permute.

(** ** C36 *)
Theorem C36_signature {U} (W L : nat) (hash : U -> N) (items : list U) : L <= W ->
  exists r, create_signature W L hash items = Some r /\ (r < 2 ^ N.of_nat W)%N /\
    forall i, bit r i = true <->
      i < L /\ bit_count true i (hash <$> items) < bit_count false i (hash <$> items).
Proof. exact (create_signature_spec W L hash items). Qed.

Theorem C36_order {U} (W L : nat) (hash : U -> N) (items items' : list U) : L <= W ->
  items ≡ₚ items' -> create_signature W L hash items = create_signature W L hash items'.
Proof. exact (create_signature_perm W L hash items items'). Qed.

Theorem C36_repeat {U} (W L : nat) (hash : U -> N) (n : nat) (items : list U) : L <= W ->
  create_signature W L hash (mjoin (replicate (S n) items)) = create_signature W L hash items.
Proof. exact (create_signature_repeat W L hash n items). Qed.

Theorem C36_empty {U} (W L : nat) (hash : U -> N) : L <= W ->
  create_signature W L hash [] = Some 0%N.
Proof.
  intros HL. destruct (create_signature_spec W L hash [] HL) as (r & -> & _ & Hr). f_equal.
  apply bits_eq. intros i. rewrite bit_0. apply not_true_iff_false. rewrite Hr. cbn. lia.
Qed.

Theorem C36_single {U} (W L : nat) (hash : U -> N) (u : U) : L <= W ->
  exists r, create_signature W L hash [u] = Some r /\
    forall i, bit r i = bool_decide (i < L) && negb (bit (hash u) i).
Proof.
  intros HL. destruct (create_signature_spec W L hash [u] HL) as (r & -> & _ & Hr).
  exists r. split; [done|]. intros i. apply eq_true_iff_eq. rewrite Hr.
  cbn [fmap list_fmap]. rewrite !bit_count_one, andb_true_iff, bool_decide_eq_true.
  destruct (bit (hash u) i); repeat case_decide; cbn; try done; intuition (try done; lia).
Qed.

(** A const parameter larger than the type panics on any non-empty document. *)
Theorem C36_too_wide {U} (W L : nat) (hash : U -> N) (items : list U) :
  W < L -> items ≠ [] -> (forall u, (hash u < 2 ^ N.of_nat W)%N) ->
  create_signature W L hash items = None.
Proof. exact (create_signature_wide W L hash items). Qed.

Example C36_example :
  create_signature 64 64 (fun u : N => u * u)%N [3; 5; 6]%N = Some 18446744073709551606%N /\
  create_signature 64 64 (fun u : N => u * u)%N [6; 3; 5]%N = Some 18446744073709551606%N /\
  create_signature 64 64 (fun u : N => u * u)%N [3; 5]%N = Some 18446744073709551590%N /\
  create_signature 64 64 (fun u : N => u)%N [5]%N = Some 18446744073709551610%N /\
  create_signature 64 128 (fun u : N => u)%N [5]%N = None /\
  create_signature 64 128 (fun u : N => u)%N [] = Some 0%N.
Proof. vm_compute. split_and!; reflexivity. Qed.

(** With only distinct tokens counted the signature would ignore multiplicity; it does not. *)
Theorem C36_set_semantics_refuted :
  exists (items items' : list N), (forall u, u ∈ items <-> u ∈ items') /\
    create_signature 64 64 (fun u => u) items ≠ create_signature 64 64 (fun u => u) items'.
Proof.
  exists [1; 2]%N, [1; 1; 2]%N. split; [set_solver|]. vm_compute. discriminate.
Qed.
Print Assumptions C36_signature.
Print Assumptions C36_order.
Print Assumptions C36_repeat.
Print Assumptions C36_empty.
Print Assumptions C36_single.
Print Assumptions C36_too_wide.
Print Assumptions C36_set_semantics_refuted.

(** ** C37 *)
Theorem C37_centroid (W L : nat) (sigs : list N) : L <= W ->
  exists r, create_centroid W L sigs = Some r /\ (r < 2 ^ N.of_nat W)%N /\
    (forall i, bit r i = true <-> i < L /\ length sigs < 2 * bit_count true i sigs) /\
    forall c, total_distance L r sigs <= total_distance L c sigs.
Proof.
  intros HL. destruct (create_centroid_spec W L sigs HL) as (r & E & Hb & Hr).
  exists r. split; [done|]. split; [done|]. split; [done|]. intros c.
  by apply (create_centroid_optimal W).
Qed.

Theorem C37_too_wide (W L : nat) (sigs : list N) : W < L -> sigs ≠ [] ->
  create_centroid W L sigs = None.
Proof. exact (create_centroid_wide W L sigs). Qed.

Example C37_example :
  create_centroid 64 64 [12; 10; 9]%N = Some 8%N /\ create_centroid 64 64 [12; 10]%N = Some 8%N /\
  create_centroid 64 64 [] = Some 0%N /\ total_distance 64 8 [12; 10; 9]%N = 3 /\
  create_centroid 64 128 [12]%N = None.
Proof. vm_compute. split_and!; reflexivity. Qed.
Print Assumptions C37_centroid.
Print Assumptions C37_too_wide.

(** ** C38 *)
Theorem C38_metric (W : nat) (x y z : N) :
  (x < 2 ^ N.of_nat W)%N -> (y < 2 ^ N.of_nat W)%N -> (z < 2 ^ N.of_nat W)%N ->
  hamming_distance x y = hamming W x y /\
  hamming_distance x y = hamming_distance y x /\
  (hamming_distance x y = 0 <-> x = y) /\
  hamming_distance x z <= hamming_distance x y + hamming_distance y z /\
  hamming_distance x y <= W.
Proof.
  intros Hx Hy Hz. rewrite !(hamming_distance_spec W) by done.
  split; [done|]. split; [apply hamming_sym|]. split; [by apply hamming_0|].
  split; [apply hamming_triangle|apply hamming_le].
Qed.

Theorem C38_angle (W : nat) (x y x' y' : N) : W = 64 \/ W = 128 ->
  (x < 2 ^ N.of_nat W)%N -> (y < 2 ^ N.of_nat W)%N ->
  (x' < 2 ^ N.of_nat W)%N -> (y' < 2 ^ N.of_nat W)%N ->
  f64_ge (hamming_angle W x y) (f64_of_N 0) = true /\
  f64_ge f64_pi (hamming_angle W x y) = true /\
  (hamming W x y = hamming W x' y' -> hamming_angle W x y = hamming_angle W x' y') /\
  (hamming W x y < hamming W x' y' -> f64_lt (hamming_angle W x y) (hamming_angle W x' y') = true).
Proof.
  intros HW Hx Hy Hx' Hy'.
  assert (Ha : angles_ok W = true) by (destruct HW as [->| ->]; [exact angles_ok_64|exact angles_ok_128]).
  change (hamming_angle W x y) with (angle_of W (hamming_distance x y)).
  change (hamming_angle W x' y') with (angle_of W (hamming_distance x' y')).
  rewrite !(hamming_distance_spec W) by done.
  destruct (angle_facts W (hamming W x y) Ha (hamming_le W x y)) as (H1 & H2 & H3).
  split; [done|]. split; [done|]. split; [by intros ->|].
  intros Hlt. apply H3. split; [done|apply hamming_le].
Qed.

Example C38_example : hamming_distance 12 10 = 2 /\ hamming_distance 12 9 = 2 /\
  hamming_distance 0 18446744073709551615 = 64 /\
  hamming_angle 64 0 18446744073709551615 = f64_pi /\ hamming_angle 64 7 7 = f64_of_N 0 /\
  hamming_angle 64 0 4294967295 = f64_div f64_pi (f64_of_N 2).
Proof. vm_compute. split_and!; reflexivity. Qed.
Print Assumptions C38_metric.
Print Assumptions C38_angle.
