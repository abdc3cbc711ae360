(** Property C106: the string index after any history of calls.

    [held ops] are the documents that are there, each with the document it replaced, if any
    (SpecTextHistory.v); [live], [added], [lossless], [similar] and [meets] are those of C50 and C51. *)
From stdpp Require Import base list gmap.
From Coq Require Import NArith.
From Verif Require Import Base Float MinHashIndex SpecIndex MinHasher Text StringIndex SpecString
  SpecTextHistory StringIndexFacts TextHistoryFacts ExampleIndex PropsString.
Local Open Scope nat_scope.

(** The answer: the documents there that are similar and that meet the query in some band, themselves or
    through the document they replaced. *)
Theorem C106_exact hash draws bh nb bw th ops q order :
  is_order order ->
  exists r, string_query hash bh order (string_after hash draws bh nb bw th ops) q = Some r /\
    r ≡ₚ (filter (answered hash draws bh nb bw th q) (held ops)).*1.
Proof. exact (text_exact hash draws bh nb bw th ops q order). Qed.

(** A document that is there is found by its own text. *)
Theorem C106_retrievable hash draws bh nb bw th ops q order :
  is_order order ->
  0 < nb -> 0 < bw -> (N.of_nat (nb * bw) <= 2 ^ 53)%N -> f64_ge f64_one th = true -> q ∈ live ops ->
  exists r, string_query hash bh order (string_after hash draws bh nb bw th ops) q = Some r /\ q ∈ r.
Proof.
  intros Ho H1 H2 H3 H4 Hq. apply live_exact; try done. destruct (held_spec ops) as [-> _]. done.
Qed.

(** Every document added is there or was replaced, and [size] counts both. *)
Theorem C106_lost hash draws bh nb bw th ops :
  (held ops).*1 = live ops /\ live ops ++ lost (held ops) ≡ₚ added ops /\
  length (lost (held ops)) = losses false ops /\
  string_size (string_after hash draws bh nb bw th ops) = N.of_nat (length (live ops) + losses false ops).
Proof.
  destruct (held_spec ops) as (H1 & H2 & H3). split; [done|]. split; [done|]. split; [done|].
  rewrite C50_size, <- H2, app_length, H3. done.
Qed.

(** [lossless] says exactly when nothing is lost. *)
Theorem C106_lossless ops : lossless ops <-> live ops ≡ₚ added ops.
Proof.
  destruct (held_spec ops) as (H1 & H2 & H3). unfold lossless. rewrite lossless_losses, <- H3. split.
  - intros Hl. apply nil_length_inv in Hl. rewrite Hl, app_nil_r in H2. done.
  - intros Hp. rewrite <- H2 in Hp. apply Permutation_length in Hp. rewrite app_length in Hp. lia.
Qed.

Example C106_example :
  is_order (Id := N) elements /\
  held ex_lossy = [(cd, None); (ab, None); (ac, None); (ab2, None); (ab, Some cd); (cd, None)] /\
  ~ lossless ex_lossy /\ losses false ex_lossy = 1 /\
  string_query ex_text_hash bhx elements (ex_index ex_lossy) cd = Some [cd; cd] /\
  (filter (answered ex_text_hash ex_draws bhx 2 2 half cd) (held ex_lossy)).*1 = [cd; cd].
Proof.
  split; [by intros s|]. split; [by vm_compute|]. split.
  { unfold lossless. rewrite lossless_losses. vm_compute. discriminate. }
  vm_compute. split_and!; reflexivity.
Qed.
Print Assumptions C106_exact.
Print Assumptions C106_retrievable.
Print Assumptions C106_lost.
Print Assumptions C106_lossless.

(** The documents that are there do not determine the answers: here one document is there in both cases. In
    the second it replaced another one and is found by a query that it meets in no band. *)
Definition ex_draws' (seed : N) (n j : nat) : N :=
  ((seed + 11400714819323198485 * (N.of_nat j * N.of_nat (j + 13) * N.of_nat (j * j + 7) + 5)) mod 2 ^ 60)%N.
Definition abc : text := [97;32;98;32;99]%N.
Definition abf : text := [97;32;98;32;102]%N.

Theorem C106_documents_decide_refuted :
  exists hash draws bh nb bw th ops ops' q t order,
    is_order order /\ 0 < nb /\ 0 < bw /\ f64_ge f64_one th = true /\ live ops = [t] /\ live ops' = [t] /\
    ~ meets hash draws bh nb bw q t /\
    string_query hash bh order (string_after hash draws bh nb bw th ops) q = Some [] /\
    string_query hash bh order (string_after hash draws bh nb bw th ops') q = Some [t].
Proof.
  exists ex_text_hash, ex_draws', bhx, 2, 2, half, [SLoadFileParallel [] [] (Some [Some abf])],
    [SInsert abc; SLoadFileParallel [] [] (Some [Some abf])], abc, abf, elements.
  split; [by intros s|]. split; [lia|]. split; [lia|]. split; [by vm_compute|]. split; [by vm_compute|].
  split; [by vm_compute|]. split; [|split; by vm_compute].
  refine (bool_decide_unpack _ (_ : Is_true (bool_decide (~ meets ex_text_hash ex_draws' bhx 2 2 abc abf)))). vm_compute. exact I.
Qed.
Print Assumptions C106_documents_decide_refuted.
