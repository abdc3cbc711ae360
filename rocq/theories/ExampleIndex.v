(** Concrete data used by the examples beside the theorems about the MinHash index. *)
From stdpp Require Import base list gmap.
From Coq Require Import NArith.
From Verif Require Import Base Float Container MinHashIndex SpecIndex.
Local Open Scope N_scope.

Definition half : f64 := f64_div (f64_of_N 1) (f64_of_N 2).
Definition bhx (l : list N) : N := fold_left (fun a x => a * 31 + x + 1) l 7.

(** Two bands of two hashes. Id 1 is offered a second time with a wrong length. *)
Definition clean_ops : list (op N N) :=
  [ Insert 1 [1;2;3;4];
    ParBulkInsert [0;1;0;1]%nat [2;3] [[1;2;3;5];[9;9;9;9]];
    Insert 1 [1;2;3;4;5];
    Remove 3;
    Insert 3 [1;2;7;8];
    ParBulkInsertPairs [1;1]%nat [(4,[7;7;3;4]); (5,[6;6;6;6])];
    BulkRemove [0]%nat [5];
    ShrinkToFit ].

(** The same, followed by overwriting, misaligned removals and panics. *)
Definition dirty_ops : list (op N N) :=
  clean_ops ++
  [ Insert 1 [1;2;9;9];
    BulkRemove [1;0]%nat [3;7;7];
    ParBulkInsertPairs [0;0]%nat [(8,[1;2;3;4]); (9,[1;2;3])];
    ShrinkTo 100 0 ].

Global Instance clean_op_dec n m (o : op N N) : Decision (clean_op n m o).
Proof. destruct o; simpl; apply _. Defined.
Fixpoint clean_from_dec n m (ops : list (op N N)) {struct ops} : Decision (clean_from n m ops).
Proof.
  destruct ops as [|o ops]; simpl; [apply _|].
  apply and_dec; [apply _|apply clean_from_dec].
Defined.
Global Instance clean_dec n (ops : list (op N N)) : Decision (clean n ops).
Proof. apply clean_from_dec. Defined.
Global Instance well_sized_dec n (m : gmap N (list N)) : Decision (well_sized n m).
Proof. change (Decision (map_Forall (fun _ s => length s = n) m)). apply _. Defined.

Lemma clean_ops_clean : clean 4 clean_ops.
Proof. apply (bool_decide_unpack _). vm_compute. exact I. Qed.
Lemma clean_ops_sized : well_sized 4 (spec_map 4 clean_ops).
Proof. apply (bool_decide_unpack _). vm_compute. exact I. Qed.
Lemma dirty_ops_sized : well_sized 4 (spec_map 4 dirty_ops).
Proof. apply (bool_decide_unpack _). vm_compute. exact I. Qed.
Lemma dirty_ops_not_clean : ~ clean 4 dirty_ops.
Proof. apply (bool_decide_unpack _). vm_compute. exact I. Qed.

(** A band hash without collisions exists: pair up the elements. *)
Definition bh_injective (l : list N) : N := Npos (encode l).
Lemma bh_injective_ok bw : collision_free bw bh_injective.
Proof. intros x y _ _ E. injection E as E. by apply (inj encode). Qed.
