(** Property C111: what becomes of a cluster that was rolled back. *)
From stdpp Require Import base list gmap.
From Coq Require Import NArith Lia.
From Verif Require Import Base ParallelClusterer SpecAttempts ParallelClustererFacts RollbackFacts PropsParallelClusterer.
Local Open Scope nat_scope.

Section C111.
Context {P : Type} `{Countable P}.
Context (query : P -> option (list P)) (min : nat) (checks : bool) (m0 : memory P) (chunks : list (list P)).
Context (Hstart : forall p a, cells m0 !! p = Some a ->
  (a <= sequence m0)%N /\ boxes m0 !! a = Some (Box COMMITTED false)).
Notation run schedule :=
  (run_schedule query min checks (System m0 (cluster_slice_start query <$> chunks) false) schedule).

(** A thread is trying to make a cluster that is not new any more: somebody rolled it back. Then
    no thread ever has it among its clusters, and its state stays. *)
Theorem C111_never_returned (schedule more : list nat) (i : nat) (t : thread P) (a : N) (b : box) :
  undefined (run schedule) = false ->
  threads (run schedule) !! i = Some t ->
  attempt (at_pc t) = Some a ->
  boxes (mem (run schedule)) !! a = Some b -> state b <> 0%N ->
  let s := run (schedule ++ more) in
  (forall t', t' ∈ threads s -> forall own, (a, own) ∉ clusters t') /\
  (exists b', boxes (mem s) !! a = Some b' /\ state b' = state b) /\
  forall cs, result s = Some cs -> a ∉ cs.*1.
Proof.
  intros Hu Ht Ha Hb Hs s.
  assert (HI : inv query m0 chunks (run schedule)).
  { apply run_inv; [by constructor|apply start_inv|done]. }
  assert (Hin : a ∈ ids t) by (apply ids_elem; by right).
  destruct (i_ids _ _ _ _ HI i t Ht) as [Hnd Hseq].
  assert (Hno : forall t', t' ∈ threads (run schedule) -> a ∉ (clusters t').*1).
  { intros t' (j & Hj)%elem_of_list_lookup Hc. destruct (decide (i = j)) as [<-|Hne].
    - rewrite Ht in Hj. injection Hj as <-. unfold ids in Hnd. apply NoDup_app in Hnd as (_ & Hd & _). apply (Hd a Hc).
      change (owner (at_pc t) = Some a) in Ha. rewrite Ha. by left.
    - apply (i_disj _ _ _ _ HI i j t t' a Hne Ht Hj Hin). unfold ids. apply elem_of_app. by left. }
  destruct (run_set query min checks a (state b) (run schedule) more Hs) as [[_ R1] R2].
  { split; [apply Hseq; exact Hin|]. by exists b. }
  { exact Hno. }
  assert (Es : run_schedule query min checks (run schedule) more = s).
  { unfold s, run_schedule. by rewrite fold_left_app. }
  rewrite Es in R1, R2. split; [|split; [exact R1|]].
  - intros t' Ht' own Ho. apply (R2 t' Ht'). apply elem_of_list_fmap. by exists (a, own).
  - intros cs Hr. unfold result in Hr. destruct (_ && _)%bool; [|done]. injection Hr as <-.
    intros ([a' own] & -> & Ho)%elem_of_list_fmap. apply elem_of_list_In, in_concat in Ho as (cl & Hcl & Ho).
    apply elem_of_list_In in Hcl, Ho. apply elem_of_list_fmap in Hcl as (t' & -> & Ht').
    apply (R2 t' Ht'). apply elem_of_list_fmap. by exists (a', own).
Qed.
End C111.

(** Thread 0 rolls back the cluster 2 of thread 1 (C48_gives_up_refuted): thread 1 is still trying,
    takes point 3 for it, and ends without it. *)
Example C111_example :
  let s l := run_schedule ex_query2 2 true
    (System ex_mem (cluster_slice_start ex_query2 <$> [[1;4];[2;5]]%N) false) (by_turns l) in
  let mid := s [(0,5);(1,8);(0,8)] in
  (attempt ∘ at_pc) <$> threads mid = [Some 1; Some 2]%N /\
  map_to_list (boxes (mem mid)) = [(1, Box 0 false); (2, Box ROLLED_BACK false)]%N /\
  cells (mem (s [(0,5);(1,8);(0,8);(1,4)])) !! 3%N = Some 2%N /\
  let e := s [(0,5);(1,8);(0,8);(1,4);(0,40);(1,40)] in
  result e = Some [(1, [1;2])]%N /\
  map_to_list (boxes (mem e)) = [(1, Box COMMITTED false); (2, Box ROLLED_BACK true)]%N.
Proof. vm_compute. split_and!; reflexivity. Qed.

Print Assumptions C111_never_returned.
