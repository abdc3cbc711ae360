(** Insertion sort meets the specification [is_sort] of the sort calls: the hypothesis of the
    theorems about sorted results can be met. *)
From stdpp Require Import base list gmap.
From Coq Require Import NArith ZArith Floats.SpecFloat.
From Verif Require Import Float SpecIndex.

Section ISort.
Context {A : Type} (le : A -> A -> bool).

Fixpoint ins (x : A) (l : list A) : list A :=
  match l with
  | [] => [x]
  | y :: l' => if le x y then x :: l else y :: ins x l'
  end.

Definition isort (l : list A) : list A := foldr ins [] l.

Lemma ins_perm x l : ins x l ≡ₚ x :: l.
Proof.
  induction l as [|y l IH]; [done|]. simpl. destruct (le x y); [done|].
  rewrite IH. constructor.
Qed.

Lemma isort_perm l : isort l ≡ₚ l.
Proof. induction l as [|x l IH]; [done|]. simpl. by rewrite ins_perm, IH. Qed.

Context (P : A -> Prop).
Context (total : forall x y, P x -> P y -> le x y = false -> le y x = true).
Context (trans : forall x y z, P x -> P y -> P z -> le x y = true -> le y z = true -> le x z = true).

Fixpoint ordered (l : list A) : Prop :=
  match l with
  | [] => True
  | x :: l' => Forall (fun y => le x y = true) l' /\ ordered l'
  end.

Lemma ins_ordered x l : P x -> Forall P l -> ordered l -> ordered (ins x l).
Proof.
  intros Hx. induction l as [|y l IH]; intros HP Ho; simpl; [auto|].
  apply Forall_cons in HP as [Hy HP]. destruct Ho as [Hyl Ho].
  destruct (le x y) eqn:E; simpl.
  - split; [|done]. constructor; [done|]. rewrite Forall_forall in *. intros z Hz.
    apply (trans x y z); auto.
  - split; [|auto]. rewrite ins_perm. constructor; auto.
Qed.

Lemma isort_ordered l : Forall P l -> ordered (isort l).
Proof.
  induction l as [|x l IH]; intros HP; simpl; [done|].
  apply Forall_cons in HP as [Hx HP]. apply ins_ordered; auto. by rewrite isort_perm.
Qed.

Lemma ordered_lookup l i j a b :
  ordered l -> i < j -> l !! i = Some a -> l !! j = Some b -> le a b = true.
Proof.
  revert i j. induction l as [|x l IH]; intros i j Ho Hij Ha Hb; [done|].
  destruct Ho as [Hx Ho].
  destruct j as [|j]; [lia|]. destruct i as [|i]; simpl in *.
  - injection Ha as <-. rewrite Forall_forall in Hx. apply Hx. by eapply elem_of_list_lookup_2.
  - apply (IH i j); auto. lia.
Qed.
End ISort.

(** [f64_ge] is a total preorder on numbers. *)
Lemma f64_ge_total x y : f64_is_nan x = false -> f64_is_nan y = false ->
  f64_ge x y = false -> f64_ge y x = true.
Proof.
  unfold f64_ge, SFleb. intros Hx Hy.
  destruct x as [sx|sx| |sx mx ex], y as [sy|sy| |sy my ey]; try done;
    destruct sx, sy; cbn [SFcompare]; try done;
    repeat match goal with |- context [Pos.compare_cont Eq ?a ?b] =>
      change (Pos.compare_cont Eq a b) with (Pos.compare a b) end;
    destruct (Z.compare_spec ex ey), (Z.compare_spec ey ex); try lia; simpl; try done;
    destruct (Pos.compare_spec mx my), (Pos.compare_spec my mx); simpl; try done; lia.
Qed.

Lemma f64_ge_trans x y z : f64_ge x y = true -> f64_ge y z = true -> f64_ge x z = true.
Proof.
  unfold f64_ge, SFleb.
  destruct x as [sx|sx| |sx mx ex], y as [sy|sy| |sy my ey], z as [sz|sz| |sz mz ez];
    try (destruct sx); try (destruct sy); try (destruct sz); cbn [SFcompare]; try done;
    repeat match goal with |- context [Pos.compare_cont Eq ?a ?b] =>
      change (Pos.compare_cont Eq a b) with (Pos.compare a b) end;
    destruct (Z.compare_spec ey ex), (Z.compare_spec ez ey), (Z.compare_spec ez ex);
      try lia; simpl; try done;
    destruct (Pos.compare_spec my mx), (Pos.compare_spec mz my), (Pos.compare_spec mz mx);
      simpl; try done; lia.
Qed.

Definition sort_desc {Id} : list (Id * f64) -> list (Id * f64) :=
  isort (fun a b => f64_ge a.2 b.2).
Definition sort_asc {Id} : list (Id * f64) -> list (Id * f64) :=
  isort (fun a b => f64_ge b.2 a.2).

Lemma sort_desc_ok {Id} : is_sort (Id := Id) f64_ge sort_desc.
Proof.
  intros l Hl. split; [apply isort_perm|]. intros i j a b Hij.
  apply (ordered_lookup (fun a b => f64_ge a.2 b.2)); [|done].
  apply (isort_ordered _ (fun p => f64_is_nan p.2 = false)); [| |done].
  - intros x y Hx Hy. by apply f64_ge_total.
  - intros x y z _ _ _. apply f64_ge_trans.
Qed.

Lemma sort_asc_ok {Id} : is_sort (Id := Id) (fun a b => f64_ge b a) sort_asc.
Proof.
  intros l Hl. split; [apply isort_perm|]. intros i j a b Hij.
  apply (ordered_lookup (fun a b => f64_ge b.2 a.2)); [|done].
  apply (isort_ordered _ (fun p => f64_is_nan p.2 = false)); [| |done].
  - intros x y Hx Hy. by apply f64_ge_total.
  - intros x y z _ _ _ H1 H2. by apply (f64_ge_trans _ y.2).
Qed.
