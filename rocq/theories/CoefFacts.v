(** Signatures under all coefficients (C69, C70). *)
From stdpp Require Import base list list_numbers.
From Coq Require Import NArith ZArith Lia.
From Verif Require Import ListFacts Base Float MinHasher SpecIndex SpecMinHash MinHasherFacts SimilarityFacts SpecTuples ExpectFacts TupleFacts.
Local Open Scope nat_scope.

Section Coef.
Context {U : Type} (hash : U -> N) (k : hasher_kind).

Lemma zip_split {A B} (l : list (A * B)) : zip l.*1 l.*2 = l.
Proof. induction l as [|[x y] l IH]; cbn; [done|]. f_equal. exact IH. Qed.
Lemma mapM_total {A B} (g : A -> option B) (v : A -> B) l : (forall x, g x = Some (v x)) -> mapM g l = Some (v <$> l).
Proof. intros Hg. induction l as [|x l IH]; [done|]. cbn. rewrite Hg. cbn. rewrite IH. done. Qed.

Lemma positions items : exists v : N * N -> N, forall cs, create_signature k hash (drawn cs) items = Some (v <$> cs).
Proof.
  assert (He : forall cs : list (N * N), replicate (length cs) 0%N = (fun _ => 0%N) <$> cs).
  { induction cs as [|c cs IH]; cbn; [done|]. f_equal. exact IH. }
  destruct items as [|u items].
  - exists (fun _ => 0%N). intros cs. destruct k; unfold drawn, create_signature, create_signature_32, create_signature_64; cbn; by rewrite He.
  - unfold drawn, create_signature, create_signature_32, create_signature_64.
    exists (fun ab => match k with
      | MinHasher64V1 => default 0 (min_by N.compare (hash_at_64 ab <$> (hash <$> u :: items)))
      | _ => default 0 (min_by N.compare (hash_at_32 ab <$> ((fun u => hash u mod u32) <$> u :: items))) mod 2 ^ width k
      end)%N.
    intros cs. cbn [drawn num_hashes coef_a coef_b]. rewrite !zip_split.
    destruct k; cbn [fmap list_fmap length Nat.ltb Nat.leb]; apply mapM_total; intros ab; cbn; done.
Qed.

Lemma agree_fmap {A} (v w : A -> N) cs :
  agreements (v <$> cs) (w <$> cs) = length (List.filter (fun x => (v x =? w x)%N) cs).
Proof.
  induction cs as [|x cs IH]; [done|]. cbn [fmap list_fmap]. rewrite agreements_cons. cbn [List.filter].
  change (list_fmap A N v cs) with (v <$> cs). change (list_fmap A N w cs) with (w <$> cs). rewrite IH.
  destruct (N.eqb_spec (v x) (w x)); case_decide; cbn; done.
Qed.

Definition alike (xs ys : list U) (ab : N * N) : bool :=
  bool_decide (create_signature k hash (drawn [ab]) xs = create_signature k hash (drawn [ab]) ys).
Lemma alike_positions xs ys v w : (forall cs, create_signature k hash (drawn cs) xs = Some (v <$> cs)) ->
  (forall cs, create_signature k hash (drawn cs) ys = Some (w <$> cs)) ->
  forall ab, alike xs ys ab = (v ab =? w ab)%N.
Proof.
  intros Hv Hw ab. unfold alike. rewrite Hv, Hw. cbn. destruct (N.eqb_spec (v ab) (w ab)) as [E|E].
  - apply bool_decide_eq_true. by rewrite E.
  - apply bool_decide_eq_false. by intros [= ?].
Qed.
Lemma filter_ext_bool {A} (f g : A -> bool) l : (forall x, f x = g x) -> List.filter f l = List.filter g l.
Proof. intros Hf. induction l as [|x l IH]; cbn; [done|]. by rewrite Hf, IH. Qed.

Lemma agreements_alike xs ys cs sx sy : create_signature k hash (drawn cs) xs = Some sx ->
  create_signature k hash (drawn cs) ys = Some sy -> agreements sx sy = length (List.filter (alike xs ys) cs).
Proof.
  destruct (positions xs) as [v Hv], (positions ys) as [w Hw]. rewrite Hv, Hw. intros [= <-] [= <-].
  rewrite agree_fmap. f_equal. apply filter_ext_bool. intros ab. symmetry. by apply alike_positions.
Qed.

Lemma share_fmap (v w : N * N -> N) bw cs i : share_band bw i (v <$> cs) (w <$> cs) <->
  forallb (fun ab => (v ab =? w ab)%N) (take bw (drop (i * bw) cs)) = true.
Proof.
  unfold share_band. rewrite forallb_forall. split.
  - intros Hs ab Hin. apply elem_of_list_In, elem_of_list_lookup in Hin as [j Hj].
    apply lookup_take_Some in Hj as [Hj Hlt]. rewrite lookup_drop in Hj.
    specialize (Hs (i * bw + j) ltac:(lia)). rewrite !list_lookup_fmap, Hj in Hs. cbn in Hs. injection Hs as Hs. by apply N.eqb_eq.
  - intros Hs j Hj. rewrite !list_lookup_fmap. destruct (cs !! j) as [ab|] eqn:E; [|done]. cbn. f_equal. apply N.eqb_eq, Hs.
    apply elem_of_list_In, elem_of_list_lookup. exists (j - i * bw). apply lookup_take_Some. split; [|lia]. rewrite lookup_drop.
    by replace (i * bw + (j - i * bw)) with j by lia.
Qed.
Lemma no_block_spec {A} (f : A -> bool) r b (l : list A) :
  no_block f r b l = false <-> exists i, i < b /\ forallb f (take r (drop (i * r) l)) = true.
Proof.
  revert l. induction b as [|b IH]; intros l; cbn [no_block].
  - split; [done|]. intros (i & Hi & _). lia.
  - rewrite andb_false_iff, negb_false_iff, IH. split.
    + intros [E|(i & Hi & E)]; [exists 0; split; [lia|done]|]. exists (S i). split; [lia|]. by rewrite drop_drop in E.
    + intros ([|i] & Hi & E); [by left|]. right. exists i. split; [lia|]. by rewrite drop_drop.
Qed.
Lemma shared_alike xs ys cs sx sy bw nb : create_signature k hash (drawn cs) xs = Some sx ->
  create_signature k hash (drawn cs) ys = Some sy ->
  (exists i, i < nb /\ share_band bw i sx sy) <-> no_block (alike xs ys) bw nb cs = false.
Proof.
  destruct (positions xs) as [v Hv], (positions ys) as [w Hw]. rewrite Hv, Hw. intros [= <-] [= <-].
  rewrite no_block_spec. apply exist_proper. intros i. rewrite share_fmap.
  assert (E : forall l, forallb (fun ab => (v ab =? w ab)%N) l = forallb (alike xs ys) l).
  { induction l as [|ab l IH]; [done|]. cbn. rewrite IH. f_equal. symmetry. by apply alike_positions. }
  by rewrite E.
Qed.
End Coef.
