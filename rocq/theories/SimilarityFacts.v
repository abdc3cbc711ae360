From stdpp Require Import base list.
From Coq Require Import NArith.
From Verif Require Import Base Float Similarity SpecIndex.

Section Facts.
Context {T : Type} `{!EqDecision T}.
Implicit Types x y : list T.

Lemma agreements_nil y : agreements [] y = 0.
Proof. done. Qed.

Lemma agreements_cons (a b : T) x y :
  agreements (a :: x) (b :: y) = (if decide (a = b) then 1 else 0) + agreements x y.
Proof.
  unfold agreements. simpl. rewrite filter_cons. simpl.
  assert (Hs : length (filter (fun i => (a :: x) !! i = (b :: y) !! i) (seq 1 (length x)))
             = length (filter (fun i => x !! i = y !! i) (seq 0 (length x)))).
  { rewrite <- fmap_S_seq. generalize (seq 0 (length x)). intros l.
    induction l as [|i l IH]; [done|]. rewrite fmap_cons, !filter_cons. simpl.
    destruct (decide (x !! i = y !! i)); simpl; rewrite IH; done. }
  destruct (decide (a = b)) as [->|Hne].
  - rewrite decide_True by done. simpl. by rewrite Hs.
  - rewrite decide_False by congruence. by rewrite Hs.
Qed.

Lemma count_matches_acc x y acc :
  length x = length y ->
  fold_left (fun acc p => (acc + if decide (p.1 = p.2) then 1 else 0)%N) (zip x y) acc
  = (acc + N.of_nat (agreements x y))%N.
Proof.
  revert y acc. induction x as [|a x IH]; intros [|b y] acc Hl; simpl in *; try done.
  - unfold agreements. simpl. lia.
  - rewrite IH by lia. rewrite agreements_cons. destruct (decide (a = b)); lia.
Qed.

Lemma count_matches_agreements x y :
  length x = length y -> count_matches x y = N.of_nat (agreements x y).
Proof. intros. unfold count_matches. by rewrite count_matches_acc. Qed.

Lemma similarity_sim x y :
  length x = length y -> compute_minhash_similarity x y = Some (sim x y).
Proof.
  intros Hl. unfold compute_minhash_similarity, sim.
  rewrite decide_True by done. by rewrite count_matches_agreements.
Qed.

Lemma similarity_panic x y :
  length x ≠ length y -> compute_minhash_similarity x y = None.
Proof. intros Hl. unfold compute_minhash_similarity. by rewrite decide_False. Qed.

Lemma agreements_le x y : agreements x y <= length x.
Proof. unfold agreements. rewrite filter_length. by rewrite seq_length. Qed.

Lemma agreements_comm x y : length x = length y -> agreements x y = agreements y x.
Proof.
  revert y. induction x as [|a x IH]; intros [|b y] Hl; simpl in *; try done.
  rewrite !agreements_cons, IH by lia.
  destruct (decide (a = b)), (decide (b = a)); congruence.
Qed.

Lemma sim_comm x y : length x = length y -> sim x y = sim y x.
Proof. intros Hl. unfold sim. by rewrite (agreements_comm x y), Hl by done. Qed.

Lemma agreements_refl x : agreements x x = length x.
Proof.
  induction x as [|a x IH]; [done|]. rewrite agreements_cons, decide_True by done.
  simpl. lia.
Qed.

Lemma agreements_full x y :
  length x = length y -> agreements x y = length x <-> x = y.
Proof.
  revert y. induction x as [|a x IH]; intros [|b y] Hl; simpl in *; try done.
  rewrite agreements_cons. pose proof (agreements_le x y).
  destruct (decide (a = b)) as [->|Hne].
  - assert (b :: x = b :: y <-> x = y) as -> by (split; congruence).
    rewrite <- IH by lia. lia.
  - split; [lia|congruence].
Qed.
End Facts.
