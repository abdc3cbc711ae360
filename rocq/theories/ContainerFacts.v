From stdpp Require Import base list gmap.
From Verif Require Import Base Container.

Section Laws.
Context {Id : Type} `{Countable Id}.

Record container_laws (K : id_container Id) : Prop := {
  law_new : ic_elems K (ic_new K) = [];
  law_len c : ic_len K c = length (ic_elems K c);
  law_push x y c : x ∈ ic_elems K (ic_push K y c) <-> x = y \/ x ∈ ic_elems K c;
  law_remove_sub x y c : x ∈ ic_elems K (ic_remove K y c) -> x ∈ ic_elems K c;
  law_remove_ne x y c : x ≠ y -> x ∈ ic_elems K c -> x ∈ ic_elems K (ic_remove K y c);
  law_push_nodup y c : y ∉ ic_elems K c -> NoDup (ic_elems K c) ->
    NoDup (ic_elems K (ic_push K y c));
  law_remove_nodup y c : NoDup (ic_elems K c) ->
    NoDup (ic_elems K (ic_remove K y c)) /\ y ∉ ic_elems K (ic_remove K y c);
}.

Lemma hashset_laws : container_laws hashset_container.
Proof.
  split; simpl.
  - apply elements_empty.
  - done.
  - intros. rewrite !elem_of_elements. set_solver.
  - intros x y c. rewrite !elem_of_elements. set_solver.
  - intros x y c. rewrite !elem_of_elements. set_solver.
  - intros. apply NoDup_elements.
  - intros y c _. split; [apply NoDup_elements|]. rewrite elem_of_elements. set_solver.
Qed.

Lemma swap_remove_perm {A} i (l : list A) x :
  l !! i = Some x -> x :: swap_remove i l ≡ₚ l.
Proof.
  intros Hi. unfold swap_remove.
  destruct (last l) as [z|] eqn:El; [|by apply last_None in El as ->].
  apply last_Some in El as [l' ->].
  rewrite app_length. simpl.
  destruct (decide (i < length l')) as [Hlt|Hge].
  - rewrite insert_app_l by done. rewrite take_app_alt by (rewrite insert_length; lia).
    rewrite lookup_app_l in Hi by done.
    rewrite <- (list_insert_id _ _ _ Hi) at 2.
    rewrite !insert_take_drop by done. rewrite <- !app_assoc. simpl.
    rewrite <- !Permutation_middle. constructor.
    rewrite app_assoc, (Permutation_app_comm (take i l' ++ _)). done.
  - assert (i = length l') as ->.
    { apply lookup_lt_Some in Hi. rewrite app_length in Hi. simpl in Hi. lia. }
    rewrite list_lookup_middle in Hi by done. injection Hi as ->.
    rewrite insert_app_r_alt by lia. rewrite Nat.sub_diag. simpl.
    rewrite take_app_alt by lia. by rewrite Permutation_app_comm.
Qed.

Lemma vec_remove_spec x (l : list Id) :
  (x ∉ l /\ vec_remove x l = l) \/ (x :: vec_remove x l ≡ₚ l).
Proof.
  unfold vec_remove. destruct (list_find _ l) as [[i y]|] eqn:E.
  - right. apply list_find_Some in E as (Hi & -> & _). by apply swap_remove_perm.
  - left. split; [|done]. intros Hx. apply list_find_None in E.
    rewrite Forall_forall in E. by eapply E.
Qed.

Lemma vec_laws : container_laws vec_container.
Proof.
  split; simpl.
  - done.
  - done.
  - intros. rewrite elem_of_app, elem_of_list_singleton. tauto.
  - intros x y c. destruct (vec_remove_spec y c) as [[? ->]|Hp]; [done|].
    intros Hx. rewrite <- Hp. by right.
  - intros x y c Hne. destruct (vec_remove_spec y c) as [[? ->]|Hp]; [done|].
    intros Hx. rewrite <- Hp in Hx. by apply elem_of_cons in Hx as [->|].
  - intros. apply NoDup_app. split; [done|]. split; [|apply NoDup_singleton].
    intros z Hz ->%elem_of_list_singleton. done.
  - intros y c Hn. destruct (vec_remove_spec y c) as [[? ->]|Hp]; [done|].
    rewrite <- Hp in Hn. by apply NoDup_cons in Hn as [].
Qed.

Lemma container_laws_all k : container_laws (container k Id).
Proof.
  destruct k; [apply hashset_laws|apply vec_laws|].
  destruct vec_laws; split; assumption.
Qed.
End Laws.
