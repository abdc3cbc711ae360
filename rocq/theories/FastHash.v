(** Minwise hashing evaluated without division: the same functions as in MinHasher.v and Fnv.v,
    faster to compute. Used only inside proofs by computation (C79, C82). *)
From stdpp Require Import base list.
From Coq Require Import NArith Lia.
From Verif Require Import Base MinHasher Fnv.
Local Open Scope N_scope.

(** The low [k] bits. *)
Fixpoint low_pos (k : nat) (p : positive) : N :=
  match k with
  | O => 0
  | S k => match p with xH => 1 | xO p => N.double (low_pos k p) | xI p => N.succ_double (low_pos k p) end
  end.
Definition low (k : nat) (x : N) : N := match x with N0 => 0 | Npos p => low_pos k p end.
Lemma low_pos_mod k p : low_pos k p = N.pos p mod 2 ^ N.of_nat k.
Proof.
  revert p. induction k as [|k IH]; intros p; [by rewrite N.mod_1_r|].
  rewrite Nat2N.inj_succ, N.pow_succ_r'. assert (H0 : 2 ^ N.of_nat k <> 0) by (by apply N.pow_nonzero).
  destruct p as [p|p|]; cbn [low_pos].
  - rewrite IH. change (N.pos p~1) with (N.succ_double (N.pos p)).
    rewrite !N.succ_double_spec. apply (N.mod_unique _ _ (N.pos p / 2 ^ N.of_nat k)).
    + pose proof (N.mod_lt (N.pos p) _ H0). lia.
    + pose proof (N.div_mod (N.pos p) _ H0). lia.
  - rewrite IH. change (N.pos p~0) with (N.double (N.pos p)). rewrite !N.double_spec.
    apply (N.mod_unique _ _ (N.pos p / 2 ^ N.of_nat k)).
    + pose proof (N.mod_lt (N.pos p) _ H0). lia.
    + pose proof (N.div_mod (N.pos p) _ H0). lia.
  - symmetry. apply N.mod_small. assert (1 <= 2 ^ N.of_nat k) by lia. lia.
Qed.
Lemma low_mod k x : low k x = x mod 2 ^ N.of_nat k.
Proof. destruct x as [|p]; [symmetry; apply N.mod_0_l; by apply N.pow_nonzero|apply low_pos_mod]. Qed.

(** The low [k] bits of a product. *)
Fixpoint mul_pos (k : nat) (a : positive) (h : N) : N :=
  match k with
  | O => 0
  | S k' =>
      match a with
      | xH => low k h
      | xO a => N.double (mul_pos k' a h)
      | xI a => low k (h + N.double (mul_pos k' a (low k' h)))
      end
  end.
Definition mul (k : nat) (a h : N) : N := match a with N0 => 0 | Npos a => mul_pos k a h end.
Lemma double_mod x m : m <> 0 -> N.double (x mod m) = N.double x mod (2 * m).
Proof.
  intros Hm. rewrite !N.double_spec. apply (N.mod_unique _ _ (x / m)).
  - pose proof (N.mod_lt x _ Hm). lia.
  - pose proof (N.div_mod x _ Hm). lia.
Qed.
Lemma mul_pos_mod k a h : mul_pos k a h = (N.pos a * h) mod 2 ^ N.of_nat k.
Proof.
  revert a h. induction k as [|k IH]; intros a h; [by rewrite N.mod_1_r|].
  assert (H0 : 2 ^ N.of_nat k <> 0) by (by apply N.pow_nonzero).
  assert (H1 : 2 ^ N.of_nat (S k) <> 0) by (by apply N.pow_nonzero).
  destruct a as [a|a|]; cbn [mul_pos].
  - rewrite IH, !low_mod, N.mul_mod_idemp_r by done. rewrite Nat2N.inj_succ, N.pow_succ_r' in *.
    rewrite double_mod, N.add_mod_idemp_r by done. f_equal. rewrite N.double_spec.
    change (N.pos a~1) with (N.succ_double (N.pos a)). rewrite N.succ_double_spec. lia.
  - rewrite IH. rewrite Nat2N.inj_succ, N.pow_succ_r' in *. rewrite double_mod by done. f_equal.
    change (N.pos a~0) with (N.double (N.pos a)). rewrite !N.double_spec. lia.
  - rewrite low_mod. f_equal. lia.
Qed.
Lemma mul_mod k a h : mul k a h = (a * h) mod 2 ^ N.of_nat k.
Proof. destruct a as [|a]; [rewrite N.mul_0_l; symmetry; apply N.mod_0_l; by apply N.pow_nonzero|apply mul_pos_mod]. Qed.

(** The remainder by [2^p - 1]. *)
Definition mersenne (p : nat) (m x : N) : N :=
  let y := low p x + N.shiftr x (N.of_nat p) in if y <? m then y else y - m.
Lemma mersenne_mod p x : x < 2 ^ N.of_nat (p + 3) -> (3 < p)%nat ->
  mersenne p (2 ^ N.of_nat p - 1) x = x mod (2 ^ N.of_nat p - 1).
Proof.
  intros Hx Hp. unfold mersenne. rewrite low_mod, N.shiftr_div_pow2. cbv zeta.
  rewrite Nat2N.inj_add, N.pow_add_r in Hx. change (2 ^ N.of_nat 3) with 8 in Hx.
  assert (H16 : 16 <= 2 ^ N.of_nat p).
  { change 16 with (2 ^ 4). apply N.pow_le_mono_r; lia. }
  generalize dependent (2 ^ N.of_nat p). intros w Hx Hw.
  pose proof (N.div_mod x w ltac:(lia)) as Ex. pose proof (N.mod_lt x w ltac:(lia)) as Hm.
  assert (Hd : x / w < 8) by (apply N.div_lt_upper_bound; lia).
  generalize dependent (x mod w). intros b. generalize dependent (x / w). intros c Hc -> Hb.
  destruct (N.ltb_spec (b + c) (w - 1)) as [Hl|Hl].
  - apply (N.mod_unique _ _ c); [lia|]. nia.
  - apply (N.mod_unique _ _ (c + 1)); [lia|]. nia.
Qed.

Definition fast_at_32 (ab : N * N) (h : N) : N := mersenne 31 mersenne_prime_31 (low 32 (mul 32 ab.1 h + ab.2)).
Definition fast_at_64 (ab : N * N) (h : N) : N := mersenne 61 mersenne_prime (low 64 (mul 64 ab.1 h + ab.2)).
Lemma fast_at_32_ok ab h : fast_at_32 ab h = hash_at_32 ab h.
Proof.
  unfold fast_at_32, hash_at_32, wrapping_add, wrapping_mul. rewrite low_mod, mul_mod.
  change mersenne_prime_31 with (2 ^ N.of_nat 31 - 1). change u32 with (2 ^ N.of_nat 32).
  rewrite mersenne_mod; [by rewrite (N.mul_comm h)| |lia].
  eapply N.lt_le_trans; [by apply N.mod_lt|]. apply N.pow_le_mono_r; lia.
Qed.
Lemma fast_at_64_ok ab h : fast_at_64 ab h = hash_at_64 ab h.
Proof.
  unfold fast_at_64, hash_at_64, wrapping_add, wrapping_mul. rewrite low_mod, mul_mod.
  change mersenne_prime with (2 ^ N.of_nat 61 - 1). change u64 with (2 ^ N.of_nat 64).
  rewrite mersenne_mod; [by rewrite (N.mul_comm h)| |lia].
  by apply N.mod_lt.
Qed.

Section Signature.
Context {U : Type} (hash : U -> N).
Definition fast_signature_32 (w : nat) (m : hasher) (items : list U) : res (list N) :=
  let hashes := (fun u => low 32 (hash u)) <$> items in
  if (0 <? length hashes)%nat then
    mapM (fun ab => h ← min_by N.compare (fast_at_32 ab <$> hashes); Ok (low w h)) (zip (coef_a m) (coef_b m))
  else Ok (replicate (num_hashes m) 0).
Definition fast_signature_64 (m : hasher) (items : list U) : res (list N) :=
  let hashes := hash <$> items in
  if (0 <? length hashes)%nat then
    mapM (fun ab => min_by N.compare (fast_at_64 ab <$> hashes)) (zip (coef_a m) (coef_b m))
  else Ok (replicate (num_hashes m) 0).
Definition fast_signature (k : hasher_kind) (m : hasher) (items : list U) : res (list N) :=
  match k with
  | MinHasher64V1 => fast_signature_64 m items
  | MinHasher32 => fast_signature_32 32 m items
  | MinHasher16 => fast_signature_32 16 m items
  | MinHasher8 => fast_signature_32 8 m items
  end.
Lemma mapM_ext' {A B} (f g : A -> option B) l : (forall x, f x = g x) -> mapM f l = mapM g l.
Proof. intros H. induction l as [|x l IH]; [done|]. cbn. by rewrite H, IH. Qed.
Lemma fast_32_ok w m items : fast_signature_32 w m items = create_signature_32 hash (2 ^ N.of_nat w) m items.
Proof.
  unfold fast_signature_32, create_signature_32.
  assert (E : (fun u => low 32 (hash u)) <$> items = (fun u => hash u mod u32) <$> items).
  { apply list_fmap_ext. intros _ u _. apply low_mod. }
  rewrite E. cbv zeta. destruct (0 <? _)%nat; [|done]. apply mapM_ext'. intros ab.
  assert (Ef : forall l : list N, fast_at_32 ab <$> l = hash_at_32 ab <$> l).
  { intros l. apply list_fmap_ext. intros _ h _. apply fast_at_32_ok. }
  rewrite Ef. destruct (min_by N.compare _) as [h|]; [|done]. cbn. by rewrite low_mod.
Qed.
Lemma fast_signature_ok k m items : fast_signature k m items = create_signature k hash m items.
Proof.
  destruct k; [exact (fast_32_ok 32 m items)|exact (fast_32_ok 16 m items)|exact (fast_32_ok 8 m items)|].
  cbn [fast_signature create_signature]. unfold fast_signature_64, create_signature_64. cbv zeta.
  destruct (0 <? _)%nat; [|done]. apply mapM_ext'. intros ab. f_equal. apply list_fmap_ext. intros _ h _. apply fast_at_64_ok.
Qed.
End Signature.

(** FNV. *)
Definition fast_byte (hash byte : N) : N := mul 64 1099511628211 (N.lxor hash byte).
Definition fast_write (hash : N) (bytes : list N) : N := foldl fast_byte hash bytes.
Lemma fast_byte_ok h b : fast_byte h b = fnv_byte h b.
Proof. unfold fast_byte, fnv_byte, wrapping_mul. rewrite mul_mod, N.mul_comm. reflexivity. Qed.
Lemma fast_write_ok h l : fast_write h l = fnv_write h l.
Proof. revert h. induction l as [|b l IH]; intros h; [done|]. cbn [fast_write fnv_write foldl]. rewrite fast_byte_ok. apply IH. Qed.
Definition fast_str (token : list N) : N := fast_write fnv_default (token ++ [255]).
Lemma fast_str_ok t : fast_str t = hash_str t.
Proof. unfold fast_str, hash_str. rewrite fast_write_ok. unfold fnv_write. by rewrite foldl_app. Qed.

Lemma fast_signature_ext {U} (f g : U -> N) k m items : (forall u, f u = g u) ->
  fast_signature f k m items = create_signature k g m items.
Proof.
  intros H. rewrite <- (fast_signature_ok g).
  assert (E32 : (fun u => low 32 (f u)) <$> items = (fun u => low 32 (g u)) <$> items).
  { apply list_fmap_ext. intros _ u _. by rewrite H. }
  assert (E64 : f <$> items = g <$> items) by (apply list_fmap_ext; intros _ u _; apply H).
  destruct k; cbn [fast_signature]; unfold fast_signature_32, fast_signature_64; by rewrite ?E32, ?E64.
Qed.
