(** Averages of simhash signatures over token hashes (C67). *)
From stdpp Require Import base list list_numbers.
From Coq Require Import NArith ZArith Lia.
From Verif Require Import ListFacts Base SimHash SpecSimHash SimHashFacts SpecExpect ExpectFacts ExpectSig ExpectBias.
Local Open Scope nat_scope.

(** Sums of integers. *)
Fixpoint totalZ {A} (F : A -> Z) (l : list A) : Z :=
  match l with [] => 0 | x :: l => F x + totalZ F l end%Z.
Section TotalZ.
Context {A : Type}.
Implicit Types (F G : A -> Z) (l : list A).
Lemma totalZ_perm F l l' : l ≡ₚ l' -> totalZ F l = totalZ F l'.
Proof. induction 1; cbn; lia. Qed.
Lemma totalZ_le F G l : (forall x, x ∈ l -> (F x <= G x)%Z) -> (totalZ F l <= totalZ G l)%Z.
Proof.
  induction l as [|x l IH]; intros Hl; cbn; [done|].
  specialize (IH (fun y Hy => Hl y (elem_of_list_further _ _ _ Hy))). specialize (Hl x (elem_of_list_here _ _)). lia.
Qed.
Lemma totalZ_ext F G l : (forall x, x ∈ l -> F x = G x) -> totalZ F l = totalZ G l.
Proof. intros Hl. apply Z.le_antisymm; apply totalZ_le; intros x Hx; rewrite (Hl x Hx); lia. Qed.
Lemma totalZ_plus F G l : totalZ (fun x => F x + G x)%Z l = (totalZ F l + totalZ G l)%Z.
Proof. induction l as [|x l IH]; cbn; lia. Qed.
Lemma totalZ_mul c F l : totalZ (fun x => c * F x)%Z l = (c * totalZ F l)%Z.
Proof. induction l as [|x l IH]; cbn; lia. Qed.
Lemma totalZ_const c l : totalZ (fun _ => c) l = (c * Z.of_nat (length l))%Z.
Proof. induction l as [|x l IH]; cbn [totalZ length]; [lia|]. rewrite Nat2Z.inj_succ. lia. Qed.
Lemma totalZ_app F l l' : totalZ F (l ++ l') = (totalZ F l + totalZ F l')%Z.
Proof. induction l as [|x l IH]; cbn; [done|]. rewrite IH. lia. Qed.
Lemma totalZ_fmap {B} (g : B -> A) F (l : list B) : totalZ F (g <$> l) = totalZ (fun x => F (g x)) l.
Proof. induction l as [|x l IH]; cbn; [done|]. by rewrite <- IH. Qed.
Lemma totalZ_bind {B} (g : B -> list A) F (l : list B) : totalZ F (l ≫= g) = totalZ (fun x => totalZ F (g x)) l.
Proof. induction l as [|x l IH]; cbn; [done|]. rewrite totalZ_app. by rewrite <- IH. Qed.
Lemma totalZ_of_nat (F : A -> nat) l : totalZ (fun x => Z.of_nat (F x)) l = Z.of_nat (total F l).
Proof. induction l as [|x l IH]; cbn; lia. Qed.
End TotalZ.
Lemma totalZ_swap {A B} (F : A -> B -> Z) (l : list A) (l' : list B) :
  totalZ (fun x => totalZ (F x) l') l = totalZ (fun y => totalZ (fun x => F x y) l) l'.
Proof.
  induction l as [|x l IH]; cbn; [by rewrite totalZ_const|]. rewrite IH. by rewrite <- totalZ_plus.
Qed.

(** ** The cube of bit assignments *)
Fixpoint bools (m : nat) : list (list bool) :=
  match m with 0 => [[]] | S m' => (cons true <$> bools m') ++ (cons false <$> bools m') end.
Lemma bools_elem m bs : bs ∈ bools m <-> length bs = m.
Proof.
  revert bs. induction m as [|m IH]; intros bs; cbn [bools].
  - rewrite elem_of_list_singleton. split; [by intros ->|apply nil_length_inv].
  - rewrite elem_of_app, !elem_of_list_fmap. split.
    + intros [(b & -> & Hb)|(b & -> & Hb)]; apply IH in Hb; cbn; lia.
    + intros Hl. destruct bs as [|[] bs]; [done| |]; [left|right]; exists bs; (split; [done|]); apply IH; cbn in Hl; lia.
Qed.
Lemma bools_nodup m : NoDup (bools m).
Proof.
  induction m as [|m IH]; cbn [bools]; [apply NoDup_singleton|]. apply NoDup_app. split_and!.
  - by apply NoDup_fmap_2; [intros a b E; injection E|].
  - intros x (a & -> & _)%elem_of_list_fmap (b & E & _)%elem_of_list_fmap. done.
  - by apply NoDup_fmap_2; [intros a b E; injection E|].
Qed.
Lemma bools_length m : length (bools m) = 2 ^ m.
Proof. induction m as [|m IH]; cbn [bools]; [done|]. rewrite app_length, !fmap_length, IH. cbn. lia. Qed.

Lemma bools_map m (g : list bool -> list bool) : (forall bs, length (g bs) = length bs) -> (forall bs, length bs = m -> g (g bs) = bs) ->
  g <$> bools m ≡ₚ bools m.
Proof.
  intros Hl Hg. apply NoDup_Permutation.
  - apply NoDup_fmap_2_strong; [|apply bools_nodup]. intros a b Ha Hb E. apply bools_elem in Ha, Hb.
    by rewrite <- (Hg a Ha), E, Hg.
  - apply bools_nodup.
  - intros bs. rewrite elem_of_list_fmap, bools_elem. split.
    + intros (a & -> & Ha). apply bools_elem in Ha. by rewrite Hl.
    + intros Hb. exists (g bs). rewrite Hg by done. split; [done|]. apply bools_elem. by rewrite Hl.
Qed.

(** Decreasing functions of the bits. *)
Definition below (bs bs' : list bool) : Prop := Forall2 (fun a b => a = true -> b = true) bs bs'.
Definition decreasing (m : nat) (F : list bool -> Z) : Prop :=
  forall bs bs', length bs = m -> below bs bs' -> (F bs' <= F bs)%Z.
Lemma below_refl bs : below bs bs.
Proof. induction bs; constructor; auto. Qed.

(** Two decreasing functions are not negatively correlated. *)
Lemma harris m F G : decreasing m F -> decreasing m G ->
  (totalZ F (bools m) * totalZ G (bools m) <= 2 ^ Z.of_nat m * totalZ (fun bs => F bs * G bs) (bools m))%Z.
Proof.
  revert F G. induction m as [|m IH]; intros F G HF HG.
  { cbn. lia. }
  cbn [bools]. rewrite !totalZ_app, !totalZ_fmap.
  assert (Hd : forall K, decreasing (S m) K -> forall b, decreasing m (fun bs => K (b :: bs))).
  { intros K HK b bs bs' Hl Hb. apply HK; [cbn; lia|]. constructor; auto. }
  assert (Hle : forall K, decreasing (S m) K -> (totalZ (fun bs => K (true :: bs)) (bools m) <= totalZ (fun bs => K (false :: bs)) (bools m))%Z).
  { intros K HK. apply totalZ_le. intros bs Hb. apply bools_elem in Hb. apply HK; [cbn; lia|]. constructor; [done|apply below_refl]. }
  pose proof (IH _ _ (Hd F HF true) (Hd G HG true)) as H1.
  pose proof (IH _ _ (Hd F HF false) (Hd G HG false)) as H0.
  pose proof (Hle F HF) as HF'. pose proof (Hle G HG) as HG'.
  rewrite Nat2Z.inj_succ, Z.pow_succ_r by lia.
  set (f1 := totalZ (fun bs => F (true :: bs)) (bools m)) in *. set (f0 := totalZ (fun bs => F (false :: bs)) (bools m)) in *.
  set (g1 := totalZ (fun bs => G (true :: bs)) (bools m)) in *. set (g0 := totalZ (fun bs => G (false :: bs)) (bools m)) in *.
  set (p1 := totalZ (fun bs => F (true :: bs) * G (true :: bs))%Z (bools m)) in *.
  set (p0 := totalZ (fun bs => F (false :: bs) * G (false :: bs))%Z (bools m)) in *.
  set (T := (2 ^ Z.of_nat m)%Z) in *.
  assert (0 <= (f0 - f1) * (g0 - g1))%Z by (apply Z.mul_nonneg_nonneg; lia).
  clearbody f1 f0 g1 g0 p1 p0 T. clear -H1 H0 H. lia.
Qed.

(** ** A document as a function of the bits of its tokens *)
Section Doc.
Context {U : Type} `{EqDecision U} (us : list U) (Hnd : NoDup us).
Implicit Types (xs ys : list U).

Fixpoint givenb (vs : list U) (bs : list bool) (u : U) : bool :=
  match vs, bs with x :: vs', b :: bs' => if decide (u = x) then b else givenb vs' bs' u | _, _ => false end.
Definition votes (b : bool) xs (bs : list bool) : nat := length (filter (fun u => givenb us bs u = b) xs).
Definition verdict xs (bs : list bool) : Z := if (votes true xs bs <? votes false xs bs) then 1%Z else (-1)%Z.

Lemma votes_sum xs bs : votes true xs bs + votes false xs bs = length xs.
Proof.
  unfold votes. induction xs as [|u xs IH]; [done|]. rewrite !filter_cons.
  destruct (givenb us bs u); repeat case_decide; cbn in *; try done; lia.
Qed.

Lemma givenb_below vs bs bs' u : below bs bs' -> givenb vs bs u = true -> givenb vs bs' u = true.
Proof.
  intros Hb. revert vs. induction Hb as [|a b bs bs' Hab Hb IH]; intros [|x vs]; cbn; try done.
  case_decide; auto.
Qed.

Lemma verdict_decreasing m xs : decreasing m (verdict xs).
Proof.
  intros bs bs' _ Hb. assert (Hv : votes true xs bs <= votes true xs bs').
  { unfold votes. induction xs as [|u xs IH]; [done|]. rewrite !filter_cons.
    pose proof (givenb_below us bs bs' u Hb). repeat case_decide; cbn; try lia. intuition. }
  pose proof (votes_sum xs bs). pose proof (votes_sum xs bs').
  unfold verdict. repeat match goal with |- context [?a <? ?b] => destruct (Nat.ltb_spec a b) end; lia.
Qed.

(** Flipping the bits of the tokens that satisfy [p]. *)
Fixpoint flip (p : U -> bool) (vs : list U) (bs : list bool) : list bool :=
  match vs, bs with
  | x :: vs', b :: bs' => (if p x then negb b else b) :: flip p vs' bs'
  | _, _ => bs
  end.
Lemma flip_length p vs bs : length (flip p vs bs) = length bs.
Proof. revert vs. induction bs as [|b bs IH]; intros [|x vs]; cbn; auto. Qed.
Lemma flip_flip p vs bs : flip p vs (flip p vs bs) = bs.
Proof. revert vs. induction bs as [|b bs IH]; intros [|x vs]; cbn; auto. rewrite IH. destruct (p x); [by rewrite negb_involutive|done]. Qed.
Lemma givenb_flip p vs bs u : u ∈ vs -> length bs = length vs ->
  givenb vs (flip p vs bs) u = (if p u then negb else id) (givenb vs bs u).
Proof.
  revert vs. induction bs as [|b bs IH]; intros [|x vs] Hu Hl; try done; [by apply elem_of_nil in Hu|].
  cbn. case_decide; [subst; by destruct (p x)|]. apply IH; [|by injection Hl].
  apply elem_of_cons in Hu as [->|Hu]; done.
Qed.

Lemma votes_flip p b xs bs : length bs = length us -> (forall u, u ∈ xs -> u ∈ us /\ p u = true) ->
  votes b xs (flip p us bs) = votes (negb b) xs bs.
Proof.
  intros Hl Hp. unfold votes. induction xs as [|u xs IH]; [done|]. rewrite !filter_cons.
  destruct (Hp u) as [Hu Hpu]; [left|]. rewrite givenb_flip, Hpu by done.
  specialize (IH (fun v Hv => Hp v (elem_of_list_further _ _ _ Hv))).
  destruct (givenb us bs u), b; repeat case_decide; cbn in *; try done; lia.
Qed.
Lemma votes_keep p b xs bs : length bs = length us -> (forall u, u ∈ xs -> u ∈ us /\ p u = false) ->
  votes b xs (flip p us bs) = votes b xs bs.
Proof.
  intros Hl Hp. unfold votes. induction xs as [|u xs IH]; [done|]. rewrite !filter_cons.
  destruct (Hp u) as [Hu Hpu]; [left|]. rewrite givenb_flip, Hpu by done.
  specialize (IH (fun v Hv => Hp v (elem_of_list_further _ _ _ Hv))). unfold id.
  repeat case_decide; cbn in *; try done; lia.
Qed.

Notation cube := (bools (length us)).
Lemma verdict_mean xs : (forall u, u ∈ xs -> u ∈ us) -> (totalZ (verdict xs) cube <= 0)%Z.
Proof.
  intros Hx. pose proof (bools_map (length us) (flip (fun _ => true) us) (flip_length _ us) (fun bs _ => flip_flip _ us bs)) as Hp.
  enough (totalZ (verdict xs) cube + totalZ (verdict xs) cube <= 0)%Z by lia.
  rewrite <- (totalZ_perm _ _ _ Hp) at 2. rewrite totalZ_fmap, <- totalZ_plus.
  transitivity (totalZ (fun _ : list bool => 0%Z) cube); [|rewrite totalZ_const; lia].
  apply totalZ_le. intros bs Hb. apply bools_elem in Hb. unfold verdict.
  assert (Hv : forall b, votes b xs (flip (fun _ => true) us bs) = votes (negb b) xs bs).
  { intros b. apply votes_flip; [done|]. intros u Hu. split; [by apply Hx|done]. }
  rewrite !Hv. cbn [negb].
  repeat match goal with |- context [?a <? ?b] => destruct (Nat.ltb_spec a b) end; lia.
Qed.

Lemma verdict_product xs ys : (forall u, u ∈ xs -> u ∈ us) -> (forall u, u ∈ ys -> u ∈ us) ->
  (0 <= totalZ (fun bs => verdict xs bs * verdict ys bs) cube)%Z.
Proof.
  intros Hx Hy. pose proof (harris (length us) _ _ (verdict_decreasing _ xs) (verdict_decreasing _ ys)) as Hh.
  pose proof (verdict_mean xs Hx). pose proof (verdict_mean ys Hy).
  pose proof (Z.pow_pos_nonneg 2 (Z.of_nat (length us)) ltac:(lia) ltac:(lia)) as HT.
  set (T := (2 ^ Z.of_nat (length us))%Z) in *. clearbody T.
  set (P := totalZ (fun bs => verdict xs bs * verdict ys bs)%Z cube) in *.
  assert (0 <= totalZ (verdict xs) cube * totalZ (verdict ys) cube)%Z by (by apply Z.mul_nonpos_nonpos).
  destruct (Z.lt_ge_cases P 0); [|done]. pose proof (Z.mul_pos_neg T P HT ltac:(done)). lia.
Qed.

Lemma verdict_disjoint xs ys : (forall u, u ∈ xs -> u ∈ us) -> (forall u, u ∈ ys -> u ∈ us) ->
  (forall u, u ∈ xs -> u ∉ ys) -> Nat.Odd (length xs) ->
  totalZ (fun bs => verdict xs bs * verdict ys bs)%Z cube = 0%Z.
Proof.
  intros Hx Hy Hd [o Ho]. set (p := fun u => bool_decide (u ∈ xs)).
  pose proof (bools_map (length us) (flip p us) (flip_length _ us) (fun bs _ => flip_flip _ us bs)) as Hp.
  enough (totalZ (fun bs => verdict xs bs * verdict ys bs)%Z cube = - totalZ (fun bs => verdict xs bs * verdict ys bs) cube)%Z by lia.
  rewrite <- (totalZ_perm _ _ _ Hp) at 1. rewrite totalZ_fmap.
  rewrite (totalZ_ext _ (fun bs => (-1) * (verdict xs bs * verdict ys bs))%Z), totalZ_mul; [lia|].
  intros bs Hb. apply bools_elem in Hb. unfold verdict.
  rewrite !(votes_flip p _ xs), !(votes_keep p _ ys); try done.
  - cbn [negb]. pose proof (votes_sum xs bs). repeat match goal with |- context [?a <? ?b] => destruct (Nat.ltb_spec a b) end; lia.
  - intros u Hu. split; [by apply Hy|]. apply bool_decide_eq_false. intros Hu'. by apply (Hd u).
  - intros u Hu. split; [by apply Hy|]. apply bool_decide_eq_false. intros Hu'. by apply (Hd u).
  - intros u Hu. split; [by apply Hx|]. by apply bool_decide_eq_true.
  - intros u Hu. split; [by apply Hx|]. by apply bool_decide_eq_true.
Qed.
End Doc.

(** ** Token hashes *)
Section Values.
Context (W : nat) (vs : list N) (Hnd : NoDup vs) (Hvs : forall v, v ∈ vs <-> (v < 2 ^ N.of_nat W)%N).

Definition half (i : nat) : Z := totalZ (fun v => if bit v i then 1 else 0)%Z vs.
Lemma toggle i v : i < W -> (v < 2 ^ N.of_nat W)%N -> (N.lxor v (2 ^ N.of_nat i) < 2 ^ N.of_nat W)%N.
Proof.
  intros Hi Hv. destruct (decide (N.lxor v (2 ^ N.of_nat i) = 0%N)) as [->|H0].
  { apply N.neq_0_lt_0. by apply N.pow_nonzero. }
  apply N.log2_lt_pow2; [lia|]. eapply N.le_lt_trans; [apply N.log2_lxor|].
  apply N.max_lub_lt.
  - destruct (decide (v = 0%N)) as [->|Hv0]; [cbn; lia|]. apply N.log2_lt_pow2; lia.
  - rewrite N.log2_pow2; lia.
Qed.
Lemma toggle_perm i : i < W -> (fun v => N.lxor v (2 ^ N.of_nat i)) <$> vs ≡ₚ vs.
Proof.
  intros Hi. assert (Hi2 : forall v, N.lxor (N.lxor v (2 ^ N.of_nat i)) (2 ^ N.of_nat i) = v).
  { intros v. by rewrite N.lxor_assoc, N.lxor_nilpotent, N.lxor_0_r. }
  apply NoDup_Permutation; [|done|].
  - apply NoDup_fmap_2; [|done]. intros a b E. by rewrite <- (Hi2 a), E, Hi2.
  - intros v. rewrite elem_of_list_fmap. split.
    + intros (w & -> & Hw). apply Hvs. apply toggle; [done|by apply Hvs].
    + intros Hv. exists (N.lxor v (2 ^ N.of_nat i)). rewrite Hi2. split; [done|]. apply Hvs, toggle; [done|by apply Hvs].
Qed.
Lemma half_false i : i < W -> totalZ (fun v => if bit v i then 0 else 1)%Z vs = half i.
Proof.
  intros Hi. unfold half. rewrite <- (totalZ_perm _ _ _ (toggle_perm i Hi)) at 1. rewrite totalZ_fmap.
  apply totalZ_ext. intros v _. unfold bit. rewrite N.lxor_spec, N.pow2_bits_true. by destruct (N.testbit v _).
Qed.
Lemma half_length i : i < W -> Z.of_nat (length vs) = (2 * half i)%Z.
Proof.
  intros Hi. transitivity (totalZ (fun _ => 1%Z) vs); [rewrite totalZ_const; lia|].
  rewrite (totalZ_ext _ (fun v => (if bit v i then 1 else 0) + (if bit v i then 0 else 1)))%Z.
  - rewrite totalZ_plus, half_false by done. unfold half. lia.
  - intros v _. by destruct (bit v i).
Qed.

Lemma assign_bits i m (F : list bool -> Z) : i < W ->
  totalZ (fun l => F ((fun v => bit v i) <$> l)) (assignments vs m) = (half i ^ Z.of_nat m * totalZ F (bools m))%Z.
Proof.
  intros Hi. revert F. induction m as [|m IH]; intros F; [cbn; lia|].
  cbn [assignments bools]. rewrite totalZ_bind, totalZ_app, !totalZ_fmap.
  rewrite (totalZ_ext _ (fun v => half i ^ Z.of_nat m * totalZ (fun bs => F (bit v i :: bs)) (bools m))%Z).
  2: { intros v _. rewrite totalZ_fmap. exact (IH (fun bs => F (bit v i :: bs))). }
  rewrite totalZ_mul.
  rewrite (totalZ_ext _ (fun v => totalZ (fun bs => F (true :: bs)) (bools m) * (if bit v i then 1 else 0)
      + totalZ (fun bs => F (false :: bs)) (bools m) * (if bit v i then 0 else 1)))%Z.
  2: { intros v _. destruct (bit v i); lia. }
  rewrite totalZ_plus, !totalZ_mul, half_false by done. fold (half i).
  rewrite Nat2Z.inj_succ, Z.pow_succ_r by lia. lia.
Qed.
End Values.

Section Distance.
Context {U : Type} `{EqDecision U} (W L : nat) (us xs ys : list U) (vs : list N).
Context (HL : L <= W) (Hus : NoDup us) (Hnd : NoDup vs) (Hvs : forall v, v ∈ vs <-> (v < 2 ^ N.of_nat W)%N).
Context (dist : list N -> nat).
Notation hs := (assignments vs (length us)).
Context (Hdist : forall l rx ry, l ∈ hs -> create_signature W L (given us l) xs = Some rx ->
  create_signature W L (given us l) ys = Some ry -> dist l = hamming W rx ry).

Lemma given_bit l u i : bit (given us l u) i = givenb us ((fun v => bit v i) <$> l) u.
Proof.
  clear. revert l. induction us as [|x us' IH]; intros [|v l]; try done; [unfold bit; cbn; apply N.bits_0..|].
  cbn. case_decide; [done|]. apply IH.
Qed.

Lemma bit_votes l zs r i : create_signature W L (given us l) zs = Some r -> i < L ->
  verdict us zs ((fun v => bit v i) <$> l) = if bit r i then 1%Z else (-1)%Z.
Proof.
  intros Hr Hi. destruct (create_signature_spec W L (given us l) zs HL) as (r' & Hr' & _ & Hb).
  rewrite Hr in Hr'. injection Hr' as <-.
  assert (Hc : forall b, bit_count b i (given us l <$> zs) = votes us b zs ((fun v => bit v i) <$> l)).
  { intros b. unfold bit_count, votes. clear. induction zs as [|z zs IH]; [done|]. cbn [fmap list_fmap].
    rewrite !filter_cons. rewrite given_bit. case_decide; cbn; by rewrite <- IH. }
  specialize (Hb i). rewrite !Hc in Hb. unfold verdict.
  destruct (Nat.ltb_spec (votes us true zs ((fun v => bit v i) <$> l)) (votes us false zs ((fun v => bit v i) <$> l))),
    (bit r i); try done; exfalso; intuition (try done; lia).
Qed.

Lemma dist_bits l : l ∈ hs -> (2 * Z.of_nat (dist l) = totalZ (fun i => 1 -
  verdict us xs ((fun v => bit v i) <$> l) * verdict us ys ((fun v => bit v i) <$> l)) (seq 0 L))%Z.
Proof.
  intros Hl.
  destruct (create_signature_spec W L (given us l) xs HL) as (rx & Hrx & _ & Hbx).
  destruct (create_signature_spec W L (given us l) ys HL) as (ry & Hry & _ & Hby).
  rewrite (Hdist l rx ry Hl Hrx Hry). unfold hamming.
  replace W with (L + (W - L)) by lia. rewrite seq_app, filter_app, app_length.
  assert (E : filter (fun i => bit rx i ≠ bit ry i) (seq (0 + L) (W - L)) = []).
  { apply elem_of_nil_inv. intros i [Hne Hi]%elem_of_list_filter. apply elem_of_seq in Hi. apply Hne.
    specialize (Hbx i). specialize (Hby i). destruct (bit rx i), (bit ry i); try done; exfalso; intuition lia. }
  rewrite E. cbn [length]. rewrite Nat.add_0_r, filter_bool, length_filter, <- totalZ_of_nat, <- totalZ_mul.
  apply totalZ_ext. intros i Hi. apply elem_of_seq in Hi.
  rewrite (bit_votes l xs rx i Hrx), (bit_votes l ys ry i Hry) by lia.
  destruct (bit rx i), (bit ry i); reflexivity.
Qed.

Lemma distance_sum : exists halves : nat -> Z,
  (forall i : nat, i < L -> (0 <= halves i)%Z /\ (2 * halves i)%Z = Z.of_nat (length vs)) /\
  (2 * Z.of_nat (sum_list (dist <$> hs)) = totalZ (fun i => Z.of_nat (length hs) -
     halves i ^ Z.of_nat (length us) * totalZ (fun bs => verdict us xs bs * verdict us ys bs) (bools (length us))) (seq 0 L))%Z.
Proof.
  exists (half vs). split.
  { intros i Hi. pose proof (half_length W vs Hnd Hvs i ltac:(lia)) as E. lia. }
  rewrite sum_total, <- totalZ_of_nat, <- totalZ_mul.
  rewrite (totalZ_ext _ (fun l => totalZ (fun i => 1 -
     verdict us xs ((fun v => bit v i) <$> l) * verdict us ys ((fun v => bit v i) <$> l)) (seq 0 L))%Z).
  2: { intros l Hl. by apply dist_bits. }
  rewrite totalZ_swap. apply totalZ_ext. intros i Hi. apply elem_of_seq in Hi.
  rewrite (totalZ_ext _ (fun l => 1 + (-1) * (verdict us xs ((fun v => bit v i) <$> l) * verdict us ys ((fun v => bit v i) <$> l)))%Z) by (intros; lia).
  rewrite totalZ_plus, totalZ_mul, totalZ_const.
  rewrite (assign_bits W vs Hnd Hvs i (length us) (fun bs => verdict us xs bs * verdict us ys bs)%Z) by lia. lia.
Qed.

Context (Hx : forall u, u ∈ xs -> u ∈ us) (Hy : forall u, u ∈ ys -> u ∈ us).
Lemma mean_distance : 2 * sum_list (dist <$> hs) <= L * length hs.
Proof.
  destruct distance_sum as (h & Hh & E). apply Nat2Z.inj_le. rewrite !Nat2Z.inj_mul. change (Z.of_nat 2) with 2%Z. rewrite E.
  transitivity (totalZ (fun _ => Z.of_nat (length hs)) (seq 0 L)); [|rewrite totalZ_const, seq_length; lia].
  apply totalZ_le. intros i Hi. apply elem_of_seq in Hi. destruct (Hh i) as [H0 _]; [lia|].
  pose proof (verdict_product us xs ys Hx Hy). pose proof (Z.pow_nonneg (h i) (Z.of_nat (length us)) H0).
  pose proof (Z.mul_nonneg_nonneg _ _ H1 H). lia.
Qed.
Lemma unrelated_distance : (forall u, u ∈ xs -> u ∉ ys) -> Nat.Odd (length xs) ->
  2 * sum_list (dist <$> hs) = L * length hs.
Proof.
  intros Hd Ho. destruct distance_sum as (h & Hh & E). apply Nat2Z.inj. rewrite !Nat2Z.inj_mul. change (Z.of_nat 2) with 2%Z. rewrite E.
  rewrite (verdict_disjoint us xs ys Hx Hy Hd Ho).
  rewrite (totalZ_ext _ (fun _ => Z.of_nat (length hs))) by (intros; lia). rewrite totalZ_const, seq_length. lia.
Qed.
End Distance.

Lemma pairs_distance (L : nat) (vs : list N) (Hnd : NoDup vs) (Hvs : forall v, v ∈ vs <-> (v < 2 ^ N.of_nat L)%N)
  (dist : list N -> nat) : let us := [1;2;3;4]%N in
  (forall l rx ry, l ∈ assignments vs (length us) -> create_signature L L (given us l) [1;2]%N = Some rx ->
    create_signature L L (given us l) [3;4]%N = Some ry -> dist l = hamming L rx ry) ->
  8 * sum_list (dist <$> assignments vs (length us)) = 3 * (L * length (assignments vs (length us))).
Proof.
  intros us Hdist. destruct (distance_sum L L us [1;2]%N [3;4]%N vs (le_n L) Hnd Hvs dist Hdist) as (h & Hh & E).
  assert (Hc : totalZ (fun bs => verdict us [1;2]%N bs * verdict us [3;4]%N bs)%Z (bools (length us)) = 4%Z) by (vm_compute; reflexivity).
  rewrite Hc in E. clear Hc.
  assert (E4 : (4 * (2 * Z.of_nat (sum_list (dist <$> assignments vs (length us)))) =
    3 * Z.of_nat (length (assignments vs (length us))) * Z.of_nat L)%Z).
  { rewrite E, <- totalZ_mul.
    rewrite (totalZ_ext _ (fun _ => 3 * Z.of_nat (length (assignments vs (length us)))))%Z; [by rewrite totalZ_const, seq_length|].
    intros i Hi. apply elem_of_seq in Hi. destruct (Hh i) as [_ H2]; [lia|].
    rewrite assignments_length, Nat2Z.inj_pow, <- H2, Z.pow_mul_l. subst us. cbn [length].
    change (2 ^ Z.of_nat 4)%Z with 16%Z. lia. }
  clear E Hdist. apply Nat2Z.inj. rewrite !Nat2Z.inj_mul. lia.
Qed.
