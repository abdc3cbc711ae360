(** Proofs about the printed texts: the fields can be read back. *)
From stdpp Require Import base list gmap strings.
From Coq Require Import NArith ZArith Ascii Decimal DecimalString DecimalNat DecimalN SpecFloat Lia.
From Verif Require Import Base Float Container MinHashIndex PyTokenizer PyMinHash Display SpecDisplay.
Local Open Scope nat_scope.

Lemma append_assoc s1 s2 s3 : ((s1 +:+ s2) +:+ s3 = s1 +:+ s2 +:+ s3)%string.
Proof. induction s1 as [|c s1 IH]; [done|]. cbn. unfold String.append in *. f_equal. exact IH. Qed.

Lemma append_cons c s1 s2 : String c s1 +:+ s2 = String c (s1 +:+ s2).
Proof. done. Qed.
Lemma append_nil s : EmptyString +:+ s = s.
Proof. done. Qed.

(** Two texts are cut at the first [c]. *)
Lemma cut_at c s1 s2 r1 r2 : lacks c s1 = true -> lacks c s2 = true ->
  s1 +:+ String c r1 = s2 +:+ String c r2 -> s1 = s2 /\ r1 = r2.
Proof.
  revert s2. induction s1 as [|a s1 IH]; intros [|b s2] H1 H2 E;
    rewrite ?append_nil, ?append_cons in E; cbn in H1, H2.
  - by injection E as ->.
  - injection E as <- _. by rewrite Ascii.eqb_refl in H2.
  - injection E as -> _. by rewrite Ascii.eqb_refl in H1.
  - injection E as E1 E2. apply andb_prop in H1 as [_ H1], H2 as [_ H2]. subst b.
    destruct (IH s2 H1 H2 E2) as [-> ->]. done.
Qed.

Lemma cut_sep c sep s1 s2 r1 r2 : lacks c s1 = true -> lacks c s2 = true ->
  s1 +:+ String c sep +:+ r1 = s2 +:+ String c sep +:+ r2 -> s1 = s2 /\ r1 = r2.
Proof.
  intros H1 H2 E. rewrite !append_cons in E. apply cut_at in E as [-> E]; [|done..].
  split; [done|]. by apply (inj (String.append sep)) in E.
Qed.

Definition not_digit (c : ascii) : Prop := lacks c "0123456789" = true.

Lemma digits_lack c d : not_digit c -> lacks c (NilEmpty.string_of_uint d) = true.
Proof.
  unfold not_digit. cbn. rewrite !andb_true_iff. intros Hc.
  induction d; cbn; [done|..]; rewrite IHd, andb_true_r; tauto.
Qed.

Lemma uint_lacks c d : not_digit c -> lacks c (NilZero.string_of_uint d) = true.
Proof.
  intros Hc. unfold NilZero.string_of_uint.
  destruct d eqn:E; [|exact (digits_lack c _ Hc)..].
  unfold not_digit in Hc. cbn in *. rewrite !andb_true_iff in Hc. by destruct Hc as [-> _].
Qed.
Lemma usize_lacks c n : not_digit c -> lacks c (show_usize n) = true.
Proof. apply uint_lacks. Qed.

Lemma uint_text_inj d1 d2 : d1 <> Nil -> d2 <> Nil ->
  NilZero.string_of_uint d1 = NilZero.string_of_uint d2 -> d1 = d2.
Proof.
  intros H1 H2 E. apply (f_equal NilZero.uint_of_string) in E.
  rewrite !NilZero.usu in E by done. by injection E as E.
Qed.

Lemma to_uint_nonnil n : Nat.to_uint n <> Nil.
Proof.
  intros E. pose proof (DecimalNat.Unsigned.of_to n) as Hn. rewrite E in Hn. cbn in Hn.
  by subst n.
Qed.

Lemma show_usize_inj n1 n2 : show_usize n1 = show_usize n2 -> n1 = n2.
Proof.
  intros E. apply uint_text_inj in E; [|apply to_uint_nonnil..].
  by apply DecimalNat.Unsigned.to_uint_inj.
Qed.

Section Display.
Context (show : f64 -> string) (Hshow : displays show).

Lemma display_inj {C1 C2 Id1 Id2 T1 T2 : Type} `{Countable Id1} `{Countable Id2} tn1 tn2
    (m1 : index C1 Id1 T1) (m2 : index C2 Id2 T2) t1 t2 :
  lacks ">" tn1 = true -> lacks ">" tn2 = true ->
  display tn1 show m1 +:+ t1 = display tn2 show m2 +:+ t2 ->
  tn1 = tn2 /\ threshold m1 = threshold m2 /\ idx_b m1 = idx_b m2 /\ idx_r m1 = idx_r m2 /\
  size (id_signatures m1) = size (id_signatures m2) /\ t1 = t2.
Proof.
  intros H1 H2 E. unfold display in E. rewrite !append_assoc in E.
  apply (inj (String.append _)) in E.
  apply cut_sep in E as [E1 E]; [|done..].
  apply cut_sep in E as [E2 E]; [|apply Hshow..].
  apply cut_sep in E as [_ E]; [|by apply usize_lacks..].
  apply cut_sep in E as [E3 E]; [|by apply usize_lacks..].
  apply cut_sep in E as [E4 E]; [|by apply usize_lacks..].
  apply cut_sep in E as [E5 E]; [|by apply usize_lacks..].
  apply show_usize_inj in E3, E4, E5. apply Hshow in E2. done.
Qed.

Lemma debug_range_inj f1 o1 f2 o2 : debug_range f1 o1 = debug_range f2 o2 -> f1 = f2 /\ o1 = o2.
Proof.
  unfold debug_range. intros E. apply (inj (String.append _)) in E.
  apply cut_sep in E as [E1 E]; [|by apply usize_lacks..]. apply show_usize_inj in E1.
  split; [done|]. destruct o1 as [n1|], o2 as [n2|]; rewrite ?append_assoc in E; try done.
  apply (inj (String.append _)) in E.
  apply cut_sep in E as [E2 _]; [|by apply usize_lacks..]. apply show_usize_inj in E2. congruence.
Qed.

Lemma debug_tokenizer_inj k1 k2 : debug_tokenizer k1 = debug_tokenizer k2 -> k1 = k2.
Proof.
  destruct k1 as [f1 o1| |f1 o1], k2 as [f2 o2| |f2 o2]; unfold debug_tokenizer; intros E; try done.
  - apply (inj (String.append _)) in E. apply debug_range_inj in E as [-> ->]. done.
  - apply (inj (String.append _)) in E. apply debug_range_inj in E as [-> ->]. done.
Qed.
End Display.

(** A way to print floats that meets the assumption. *)
Definition sign_text (s : bool) : string := if s then "-" else "+".
Definition show_num (n : N) : string := NilZero.string_of_uint (N.to_uint n).

Lemma show_num_inj n1 n2 : show_num n1 = show_num n2 -> n1 = n2.
Proof.
  assert (Hn : forall n, N.to_uint n <> Nil).
  { intros n E. pose proof (DecimalN.Unsigned.of_to n) as Hn. rewrite E in Hn. cbn in Hn.
    by subst n. }
  intros E. apply uint_text_inj in E; [|apply Hn..]. by apply DecimalN.Unsigned.to_uint_inj.
Qed.

Definition ex_show (x : f64) : string :=
  match x with
  | S754_zero s => "zero" +:+ sign_text s
  | S754_infinity s => "inf" +:+ sign_text s
  | S754_nan => "nan"
  | S754_finite s m e =>
      sign_text s +:+ show_num (Npos m) +:+ "*2^" +:+ sign_text (Z.ltb e 0) +:+ show_num (Z.abs_N e)
  end.

Lemma lacks_app c s1 s2 : lacks c (s1 +:+ s2) = (lacks c s1 && lacks c s2)%bool.
Proof.
  induction s1 as [|a s1 IH]; [done|]. rewrite append_cons. cbn. by rewrite IH, andb_assoc.
Qed.

Lemma ex_show_ok : displays ex_show.
Proof.
  split.
  - intros [s|s| |s m e]; unfold ex_show; unfold show_num; rewrite ?lacks_app, ?uint_lacks by done; try done; destruct s; try done.
    all: by destruct (Z.ltb e 0).
  - intros [s1|s1| |s1 m1 e1] [s2|s2| |s2 m2 e2] E; unfold ex_show in E; try done;
      try (destruct s1; done); try (destruct s2; done); try (destruct s1, s2; done).
    assert (Hs : s1 = s2) by (destruct s1, s2; done). subst s2.
    apply (inj (String.append _)) in E.
    apply cut_sep in E as [E1 E]; [|by apply uint_lacks..].
    assert (Hs : Z.ltb e1 0 = Z.ltb e2 0) by (destruct (Z.ltb e1 0), (Z.ltb e2 0); done).
    rewrite Hs in E. apply (inj (String.append _)) in E.
    apply show_num_inj in E, E1. injection E1 as <-.
    destruct (Z.ltb_spec e1 0), (Z.ltb_spec e2 0); try done; f_equal; lia.
Qed.
