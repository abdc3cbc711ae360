(** C84: the constructor of the Python simhash class in builds without overflow checks. *)
From stdpp Require Import base list gmap strings.
From Coq Require Import NArith ZArith Lia.
From Verif Require Import Base SimHashIndex PyTokenizer PyMinHash PySimHash Unchecked PyUnchecked PermutationFacts PropsUnchecked PropsPy.
Local Open Scope nat_scope.

(** It ends as in the checked build wherever that one does not panic, and never ends where it
    does. (From 2^64 on the number of blocks is refused before the call.) *)
Theorem C84_python (hash_size num_blocks hamming_distance : Z) (an : analyzer) lc range (room : bool) (fuel : nat) :
  128 <= fuel -> (num_blocks < 2 ^ 64)%Z ->
  let checked := sclass_new hash_size num_blocks hamming_distance an lc range in
  (checked ≠ SPanic ->
   sclass_new_u room fuel hash_size num_blocks hamming_distance an lc range = Done checked) /\
  (checked = SPanic -> forall fuel',
   sclass_new_u room fuel' hash_size num_blocks hamming_distance an lc range = Running) /\
  (checked = SPanic <-> hash_size ∈ [64; 128]%Z /\ (0 <= hamming_distance < num_blocks)%Z /\
     (hash_size < num_blocks)%Z /\ (forall s, an = Named s -> s ∈ ["word"; "char"]%string)).
Proof.
  intros Hf Hn. cbn zeta. unfold sclass_new, sclass_new_u.
  destruct (decide (hash_size ∈ [64; 128]%Z)) as [Hs|Hs];
    [rewrite bool_decide_true by done|rewrite bool_decide_false by done]; cbn [negb].
  2:{ split; [done|]. split; [done|]. split; [done|]. by intros [? _]. }
  assert (E0 : ((num_blocks <? 3) && (32 <? num_blocks))%Z = false).
  { destruct (Z.ltb_spec num_blocks 3), (Z.ltb_spec 32 num_blocks); try done. lia. }
  rewrite E0. clear E0.
  destruct (Z.leb_spec num_blocks hamming_distance) as [Hd|Hd].
  { split; [done|]. split; [done|]. split; [done|]. intros (_ & ? & _). lia. }
  assert (Hok : (forall s, an = Named s -> s ∈ ["word"; "char"]%string) <->
    match an with
    | Callable _ => false
    | Named s => negb (bool_decide (s ∈ ["word"; "char"]%string))
    end = false).
  { destruct an as [s|f]; [|by split]. rewrite negb_false_iff, bool_decide_eq_true. split; [by auto|].
    by intros Hin s' [= <-]. }
  rewrite Hok. clear Hok.
  destruct (match an with Callable _ => false | Named s => _ end).
  { split; [done|]. split; [done|]. split; [done|]. by intros (_ & _ & _ & ?). }
  rewrite (proj2 (Z.leb_gt (2 ^ 64) num_blocks) Hn), orb_false_r.
  destruct (Z.ltb_spec num_blocks 0) as [Hb|Hb].
  { split; [done|]. split; [done|]. split; [done|]. intros (_ & ? & _). lia. }
  destruct (Z.ltb_spec hamming_distance 0) as [Hh|Hh]; cbn [orb].
  { split; [done|]. split; [done|]. split; [done|]. intros (_ & ? & _). lia. }
  set (name := match an with Callable _ => "word"%string | Named s => s end).
  assert (HW : (if (hash_size =? 64)%Z then 64 else 128) = Z.to_nat hash_size /\ (1 < hash_size <= 128)%Z).
  { apply elem_of_cons in Hs as [->|Hs]; [by split|]. apply elem_of_list_singleton in Hs as ->. by split. }
  destruct HW as [-> HW]. unfold ps_new, ps_new_u.
  destruct (C84_new (Id := Z) (Z.to_nat hash_size) (Z.to_nat num_blocks) (Z.to_nat hamming_distance) fuel room)
    as (H1 & _ & H3); [lia|lia|lia|].
  destruct (Z.ltb_spec hash_size num_blocks) as [Hw|Hw].
  - assert (E : sindex_new (Id := Z) (Z.to_nat hash_size) (Z.to_nat num_blocks) (Z.to_nat hamming_distance) = None).
    { unfold sindex_new. by rewrite perm_create_too_many by lia. }
    rewrite E. cbn [mbind option_bind]. split; [done|]. split.
    + intros _ fuel'. rewrite H3 by lia. reflexivity.
    + split; [|done]. intros _. repeat split; lia || done.
  - destruct H1 as (m & E1 & E2); [lia|]. rewrite E1, E2. cbn. split; [done|]. split; [done|].
    split; [done|]. intros (_ & _ & ? & _). lia.
Qed.
Print Assumptions C84_python.

Example C84_python_example :
  sclass_new 64 65 3 (Named "word") None None = SPanic /\
  (forall room fuel, sclass_new_u room fuel 64 65 3 (Named "word") None None = Running) /\
  exists m, sclass_new_u true 128 64 6 5 (Named "char") None None = Done (SMade 64 m).
Proof.
  destruct (C84_python 64 65 3 (Named "word") None None true 128) as (_ & H1 & H2); [lia|done|].
  assert (E : sclass_new 64 65 3 (Named "word") None None = SPanic).
  { apply H2. split; [by left|]. split; [lia|]. split; [lia|]. intros s [= <-]. by left. }
  split; [exact E|]. split.
  - intros room fuel.
    destruct (C84_python 64 65 3 (Named "word") None None room 128) as (_ & H & _); [lia|done|].
    exact (H E fuel).
  - destruct (C54_constructor 64 6 5 (Named "char") None None) as [_ H]. destruct H as [_ H]; [by left|].
    destruct H as [_ H]; [done|]. destruct H as (_ & _ & H); [intros s [= <-]; right; by left|].
    destruct H as (m & Em & _); [done..|].
    destruct (C84_python 64 6 5 (Named "char") None None true 128) as (H0 & _); [lia|done|].
    exists m. rewrite H0; [by rewrite Em|by rewrite Em].
Qed.
