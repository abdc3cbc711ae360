(** Properties C50 and C51: the string index.

    [string_after hash draws bh nb bw th ops] is the index after a history of calls; [added ops]
    are all documents the history added, [live ops] those it kept (SpecString.v). *)
From stdpp Require Import base list gmap.
From Coq Require Import NArith.
From Verif Require Import Base Float MinHashIndex SpecIndex MinHasher Text StringIndex SpecString
  StringIndexFacts ExampleIndex.
Local Open Scope nat_scope.

(** Two bands of two hashes; texts are written with the letters a, b, c, d and spaces. *)
Definition ex_text_hash (t : text) : N := fold_left (fun a c => (a * 131 + c) mod 2 ^ 64)%N t 7%N.
Definition ex_draws (seed : N) (n j : nat) : N := (seed + 1000003 * N.of_nat j * N.of_nat (j + 7))%N.
Definition ab : text := [97;32;98]%N.
Definition ab2 : text := [98;44;97]%N.
Definition ac : text := [97;32;99]%N.
Definition cd : text := [99;100;32;100]%N.
Definition ex_ops : list string_op :=
  [SLoadFileParallel [1;0] [0;1;1] (Some [Some cd; Some ab]); SInsert ac; SLoadLines [Some ab2; None];
   SLoadFile (Some [Some cd]); SLoadFileParallel [] [] (Some [Some ac; None])].
(** The same, with a parallel load after them. *)
Definition ex_lossy : list string_op :=
  ex_ops ++ [SLoadFileParallel [] [1;0;0] (Some [Some ab; Some cd])].
Definition ex_index (ops : list string_op) : string_index :=
  string_after ex_text_hash ex_draws bhx 2 2 half ops.

(** ** C50 *)
Theorem C50_query hash draws bh nb bw th ops q order :
  is_order order ->
  exists r, string_query hash bh order (string_after hash draws bh nb bw th ops) q = Some r /\
    r ⊆+ filter (similar hash draws nb bw th q) (live ops) /\
    filter (fun t => similar hash draws nb bw th q t /\ meets hash draws bh nb bw q t) (live ops) ⊆+ r.
Proof.
  intros Ho. destruct (string_query_bounds hash draws bh nb bw th ops q order Ho) as (r & H1 & H2 & H3 & _).
  eauto.
Qed.

Theorem C50_size hash draws bh nb bw th ops :
  string_size (string_after hash draws bh nb bw th ops) = N.of_nat (length (added ops)).
Proof. apply after_sinv. Qed.

(** Only a parallel load of a file with an unreadable line panics. *)
Theorem C50_outputs hash draws bh nb bw th ops o :
  (string_step hash bh (string_after hash draws bh nb bw th ops) o).2 = string_spec_out o.
Proof. exact (string_outputs hash draws bh nb bw th ops o). Qed.

Example C50_example :
  is_order (Id := N) elements /\
  string_query ex_text_hash bhx elements (ex_index ex_lossy) ab = Some [ab; ac; ab; ab2] /\
  filter (similar ex_text_hash ex_draws 2 2 half ab) (live ex_lossy) = [ab; ac; ab2; ab] /\
  string_size (ex_index ex_lossy) = 7%N /\ live ex_lossy = [cd; ab; ac; ab2; ab; cd].
Proof. split; [by intros s|]. vm_compute. split_and!; reflexivity. Qed.
Print Assumptions C50_query.
Print Assumptions C50_size.
Print Assumptions C50_outputs.

(** ** C51 *)
Theorem C51_exact hash draws bh nb bw th ops q order :
  is_order order -> lossless ops ->
  exists r, string_query hash bh order (string_after hash draws bh nb bw th ops) q = Some r /\
    r ≡ₚ filter (fun t => similar hash draws nb bw th q t /\ meets hash draws bh nb bw q t) (added ops).
Proof.
  intros Ho Hl. destruct (string_query_bounds hash draws bh nb bw th ops q order Ho) as (r & H1 & _ & _ & H2).
  eauto.
Qed.

Theorem C51_retrievable hash draws bh nb bw th ops q order :
  is_order order -> lossless ops ->
  0 < nb -> 0 < bw -> (N.of_nat (nb * bw) <= 2 ^ 53)%N -> f64_ge f64_one th = true -> q ∈ added ops ->
  exists r, string_query hash bh order (string_after hash draws bh nb bw th ops) q = Some r /\ q ∈ r.
Proof. exact (string_self_query hash draws bh nb bw th ops q order). Qed.

Theorem C51_serial_or_parallel_only (ops : list string_op) :
  Forall (fun o => parallel o = false) ops \/ Forall (fun o => parallel o = true) ops ->
  lossless ops.
Proof. intros [H|H]; [by apply serial_lossless|by apply parallel_lossless]. Qed.

Example C51_example :
  lossless ex_ops /\ f64_ge f64_one half = true /\ added ex_ops = [cd; ab; ac; ab2; cd] /\
  string_query ex_text_hash bhx elements (ex_index ex_ops) cd = Some [cd; cd].
Proof. vm_compute. split_and!; done. Qed.
Print Assumptions C51_exact.
Print Assumptions C51_retrievable.
Print Assumptions C51_serial_or_parallel_only.

(** A parallel load after an insertion loses the inserted document. *)
Theorem C51_parallel_after_insert_refuted :
  exists (hash : text -> N) draws bh nb bw th ops q order r,
    is_order order /\ 0 < nb /\ 0 < bw /\ f64_ge f64_one th = true /\ q ∈ added ops /\
    string_size (string_after hash draws bh nb bw th ops) = 2%N /\
    string_query hash bh order (string_after hash draws bh nb bw th ops) q = Some r /\ q ∉ r.
Proof.
  exists ex_text_hash, ex_draws, bhx, 2, 2, half,
    [SInsert ab; SLoadFileParallel [] [] (Some [Some cd])], ab, elements, [].
  split; [by intros s|]. split; [lia|]. split; [lia|]. split; [by vm_compute|].
  split; [by left|]. split; [by vm_compute|]. split; [by vm_compute|]. by apply not_elem_of_nil.
Qed.
Print Assumptions C51_parallel_after_insert_refuted.
