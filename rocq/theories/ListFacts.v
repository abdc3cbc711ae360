(** General facts about lists. *)
From stdpp Require Import base list sets.

Lemma sublist_NoDup {B} (l k : list B) : NoDup k -> l `sublist_of` k -> NoDup l.
Proof.
  intros Hnd Hs. revert Hnd. induction Hs as [|x l k Hs IH|x l k Hs IH]; intros Hnd.
  - constructor.
  - apply NoDup_cons in Hnd as [Hni Hnd]. constructor; [|by apply IH].
    intros Hin. apply Hni. eapply elem_of_submseteq; [exact Hin|]. by apply sublist_submseteq.
  - apply NoDup_cons in Hnd as [_ Hnd]. by apply IH.
Qed.

Lemma sublist_filter {B} (P : B -> Prop) `{!forall x, Decision (P x)} (l : list B) :
  filter P l `sublist_of` l.
Proof.
  induction l as [|x l IH]; [constructor|]. rewrite filter_cons.
  case_decide; by constructor.
Qed.

Lemma mapM_perm {A B} (f : A -> option B) l1 l2 r1 :
  l1 ≡ₚ l2 -> mapM f l1 = Some r1 -> exists r2, mapM f l2 = Some r2 /\ r2 ≡ₚ r1.
Proof.
  intros HP. revert r1. induction HP as [|x l1 l2 HP IH|x y l|l1 l2 l3 H1 IH1 H2 IH2]; intros r1 E.
  - eauto.
  - cbn in E |- *. destruct (f x) as [y|]; [|done]. cbn in E |- *.
    destruct (mapM f l1) as [r|]; [|done]. cbn in E. injection E as <-.
    destruct (IH r eq_refl) as (r2 & -> & Hr). cbn. eexists. split; [done|]. by constructor.
  - cbn in E |- *. destruct (f y) as [y'|]; [|done]. cbn in E |- *.
    destruct (f x) as [x'|]; [|done]. cbn in E |- *.
    destruct (mapM f l) as [r|]; [|done]. cbn in E |- *. injection E as <-.
    eexists. split; [done|]. constructor.
  - destruct (IH1 r1 E) as (r2 & E2 & Hr2). destruct (IH2 r2 E2) as (r3 & E3 & Hr3).
    exists r3. split; [done|]. by etrans.
Qed.

Lemma filter_sublist_weaken {A} (Q1 Q2 : A -> Prop) `{!forall x, Decision (Q1 x), !forall x, Decision (Q2 x)} (l : list A) :
  (forall x, x ∈ l -> Q1 x -> Q2 x) -> filter Q1 l `sublist_of` filter Q2 l.
Proof.
  induction l as [|x l IH]; intros Hi; [done|].
  specialize (IH ltac:(intros; apply Hi; set_solver)).
  rewrite !filter_cons. destruct (decide (Q1 x)); destruct (decide (Q2 x)).
  - by apply sublist_skip.
  - exfalso. eauto with set_solver.
  - by apply sublist_cons.
  - done.
Qed.

Lemma filter_iff_in {A} (Q1 Q2 : A -> Prop) `{!forall x, Decision (Q1 x), !forall x, Decision (Q2 x)} (l : list A) :
  (forall x, x ∈ l -> Q1 x <-> Q2 x) -> filter Q1 l = filter Q2 l.
Proof.
  induction l as [|x l IH]; intros Hi; [done|].
  specialize (IH ltac:(intros; apply Hi; set_solver)).
  assert (Hx : Q1 x <-> Q2 x) by (apply Hi; set_solver).
  rewrite !filter_cons. rewrite IH. destruct (decide (Q1 x)); destruct (decide (Q2 x)); tauto.
Qed.

Lemma filter_snd {A B} (Q : B -> Prop) `{!forall x, Decision (Q x)} (P : list (A * B)) :
  filter Q P.*2 = (filter (fun p => Q p.2) P).*2.
Proof.
  induction P as [|[a b] P IH]; [done|]. cbn [fmap list_fmap]. rewrite !filter_cons. cbn [snd].
  destruct (decide (Q b)); cbn [fmap list_fmap snd]; by rewrite IH.
Qed.
