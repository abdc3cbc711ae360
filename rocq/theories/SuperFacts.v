(** Proofs about SuperMinHash.v. *)
From stdpp Require Import base list.
From Coq Require Import NArith ZArith Lia.
From Verif Require Import Base Float SuperMinHash SpecSuper SuperFloat.
Local Open Scope nat_scope.

(** ** Version 1 *)
Lemma least_snoc l x : least (l ++ [x]) = N.min (least l) x.
Proof.
  unfold least. induction l as [|y l IH]; cbn [foldr app]; [lia|]. rewrite IH. lia.
Qed.

Section V1.
Context (shuffle : N -> nat -> list N) (unit1 : N -> nat -> nat -> f32) (m : nat).
Context (Hs : forall seed, shuffle seed m ≡ₚ (N.of_nat <$> seq 0 m)).
Context (Hu : forall seed j, is_unit (unit1 seed m j)).
Context (Hm : (N.of_nat m <= 2 ^ 24)%N).

(** The number a token offers for cell [j]. *)
Definition offer (j : nat) (seed : N) : N :=
  f32_as_u32 (f32_add (unit1 seed m j) (f32_of_N (default 0%N (shuffle seed m !! j)))).

Lemma shuffle_lookup seed j : j < m -> exists p, shuffle seed m !! j = Some p /\ (p < N.of_nat m)%N.
Proof.
  intros Hj. destruct (lookup_lt_is_Some_2 (shuffle seed m) j) as [p Hp].
  { rewrite (Permutation_length (Hs seed)), fmap_length, seq_length. done. }
  exists p. split; [done|]. apply elem_of_list_lookup_2 in Hp. rewrite (Hs seed) in Hp.
  apply elem_of_list_fmap in Hp as (x & -> & Hx). apply elem_of_seq in Hx. lia.
Qed.

Definition v1_inv (ts : list N) (h : list f32) : Prop :=
  length h = m /\ forall j x, h !! j = Some x -> nonneg x /\ f32_as_u32 x = least (offer j <$> ts).

Lemma v1_token_inv ts h seed : v1_inv ts h ->
  exists h', v1_token shuffle unit1 m h seed = Some h' /\ v1_inv (ts ++ [seed]) h'.
Proof.
  intros [Hl Hh]. unfold v1_token.
  assert (Hok : is_Some (mapM (fun j => x ← h !! j; pj ← shuffle seed m !! j;
                 Ok (f32_min x (f32_add (unit1 seed m j) (f32_of_N pj)))) (seq 0 m))).
  { apply mapM_is_Some_2. apply Forall_forall. intros j Hj. apply elem_of_seq in Hj.
    destruct (lookup_lt_is_Some_2 h j) as [x Hx]; [lia|].
    destruct (shuffle_lookup seed j) as (p & Hp & _); [lia|]. unfold compose. rewrite Hx. cbn [mbind option_bind]. rewrite Hp. cbn. eauto. }
  destruct Hok as [h' Hh']. exists h'. split; [done|]. apply mapM_Some_1 in Hh'. split.
  { rewrite <- (Forall2_length _ _ _ Hh'), seq_length. done. }
  intros j x Hx. destruct (Forall2_lookup_r _ _ _ _ _ Hh' Hx) as (j' & Hj' & E).
  apply lookup_seq in Hj' as [-> Hj]. cbn in E.
  destruct (h !! j) as [y|] eqn:Ey; [|done]. cbn in E.
  destruct (shuffle_lookup seed j Hj) as (p & Hp & Hpm). rewrite Hp in E. cbn in E. injection E as <-.
  destruct (Hh j y Ey) as [Hn Hv].
  destruct (min_u32 y (f32_add (unit1 seed m j) (f32_of_N p))) as [Hn' Hv'].
  { done. } { apply unit_add_nonneg; [apply Hu|lia]. }
  split; [done|]. rewrite fmap_app. change (offer j <$> [seed]) with [offer j seed]. rewrite least_snoc, Hv', Hv. f_equal. cbn. unfold offer. by rewrite Hp.
Qed.

Lemma v1_sig ts : exists s, v1_create_signature shuffle unit1 m ts = Some s /\
  s = (fun j => least (offer j <$> ts)) <$> seq 0 m.
Proof.
  assert (H : exists h, foldl (fun acc seed => h ← acc; v1_token shuffle unit1 m h seed) (Ok (replicate m initial)) ts = Some h
    /\ v1_inv ts h).
  { induction ts as [|t ts IH] using rev_ind.
    - eexists. split; [done|]. split; [apply replicate_length|]. intros j x Hx.
      apply lookup_replicate in Hx as [-> _]. split; [apply initial_nonneg|apply initial_u32].
    - destruct IH as (h & E & Hi). rewrite foldl_app. cbn [foldl]. rewrite E. cbn [mbind option_bind].
      by apply v1_token_inv. }
  destruct H as (h & E & Hl & Hh). unfold v1_create_signature. rewrite E. cbn. eexists. split; [done|].
  apply list_eq. intros j. rewrite !list_lookup_fmap. destruct (decide (j < m)) as [Hj|Hj].
  - destruct (lookup_lt_is_Some_2 h j) as [x Hx]; [lia|]. rewrite Hx. rewrite lookup_seq_lt by done. cbn.
    f_equal. by apply Hh.
  - rewrite !(lookup_ge_None_2 _ j); [done|rewrite seq_length; lia|lia].
Qed.

Lemma offer_rank seed j p : shuffle seed m !! j = Some p -> offer j seed = p \/ offer j seed = (p + 1)%N.
Proof.
  intros Hp. unfold offer. rewrite Hp. cbn [default]. apply unit_add_u32; [apply Hu|].
  assert (j < m).
  { apply lookup_lt_Some in Hp. rewrite (Permutation_length (Hs seed)), fmap_length, seq_length in Hp. done. }
  destruct (shuffle_lookup seed j) as (p' & Hp' & ?); [done|]. rewrite Hp in Hp'. injection Hp' as <-. lia.
Qed.
End V1.

Lemma least_le l x : x ∈ l -> (least l <= x)%N.
Proof. unfold least. induction 1; cbn [foldr]; lia. Qed.
Lemma least_spec l : (least l <= 100000000)%N /\ (least l = 100000000%N \/ least l ∈ l).
Proof.
  unfold least. induction l as [|x l [IH1 IH2]]; cbn [foldr]; [split; [lia|by left]|]. split; [lia|].
  destruct (N.min_spec x (foldr N.min 100000000%N l)) as [[_ ->]|[_ ->]]; [right; by left|].
  destruct IH2 as [?|?]; [by left|right; by right].
Qed.
Lemma least_set l1 l2 : (forall x, x ∈ l1 <-> x ∈ l2) -> least l1 = least l2.
Proof.
  assert (H : forall l1 l2, (forall x, x ∈ l2 -> x ∈ l1) -> (least l1 <= least l2)%N).
  { clear. intros l1 l2 Hi. destruct (least_spec l2) as [_ [->|Hin]]; [apply least_spec|].
    apply least_le. by apply Hi. }
  intros Hi. apply N.le_antisymm; apply H; intros x Hx; by apply Hi.
Qed.
Lemma least_app l1 l2 : least (l1 ++ l2) = N.min (least l1) (least l2).
Proof.
  induction l2 as [|x l2 IH] using rev_ind.
  - rewrite app_nil_r. pose proof (least_spec l1). change (least []) with 100000000%N. lia.
  - rewrite app_assoc, !least_snoc, IH. lia.
Qed.

(** ** Version 2: the loop never underflows *)
Definition zsum (l : list Z) : Z := foldr Z.add 0%Z l.

Lemma zsum_insert l j x y : l !! j = Some x -> zsum (<[j := y]> l) = (zsum l - x + y)%Z.
Proof.
  revert j. induction l as [|z l IH]; intros [|j] H; try done.
  - cbn in H. injection H as ->. unfold zsum. cbn. lia.
  - change (zsum (<[S j := y]> (z :: l))) with (z + zsum (<[j := y]> l))%Z.
    rewrite (IH j H). unfold zsum. cbn. lia.
Qed.

Lemma zsum_nonpos l : (forall j x, l !! j = Some x -> (x <= 0)%Z) -> (zsum l <= 0)%Z.
Proof.
  induction l as [|z l IH]; intros H; [done|]. change (zsum (z :: l)) with (z + zsum l)%Z.
  pose proof (H 0 z eq_refl). pose proof (IH (fun j x E => H (S j) x E)). lia.
Qed.

Lemma lower_spec b a : a < length b -> zsum b = 1%Z -> (forall x z, a < x -> b !! x = Some z -> (z <= 0)%Z) ->
  exists a', v2_lower b a = Some a' /\ a' <= a /\ (forall x z, a' < x -> b !! x = Some z -> (z <= 0)%Z) /\
    (forall z, b !! a = Some z -> z ≠ 0%Z -> a' = a) /\ (b !! a = Some 0%Z \/ a' = a).
Proof.
  intros Ha Hsum. revert Ha. induction a as [|a IH]; intros Ha Hb.
  - destruct (lookup_lt_is_Some_2 b 0 Ha) as [z Hz]. cbn [v2_lower]. rewrite Hz. cbn [mbind option_bind].
    destruct (Z.eqb_spec z 0) as [->|Hne].
    + exfalso. assert (zsum b <= 0)%Z; [|lia]. apply zsum_nonpos. intros [|j] x Hx.
      * rewrite Hz in Hx. injection Hx as <-. lia.
      * apply (Hb (S j)); [lia|done].
    + exists 0. split_and!; [done|lia|done| |by right]. done.
  - destruct (lookup_lt_is_Some_2 b (S a) Ha) as [z Hz]. cbn [v2_lower]. rewrite Hz. cbn [mbind option_bind].
    destruct (Z.eqb_spec z 0) as [->|Hne].
    + destruct IH as (a' & E & Hle & Hb' & _); [lia| |].
      { intros x y Hx Hy. destruct (decide (x = S a)) as [->|]; [|apply (Hb x); [lia|done]].
        rewrite Hz in Hy. injection Hy as <-. lia. }
      exists a'. split_and!; [done|lia|done| |by left].
      intros z' [= <-]. done.
    + exists (S a). split_and!; [done|lia|done|done|by right].
Qed.

Section V2.
Context (unit2 : N -> nat -> nat -> f32) (pick : N -> nat -> nat -> nat) (m : nat).
Context (Hk : forall seed j, j < m -> j <= pick seed m j < m).

Record v2_inv (s : v2_state) : Prop := {
  vi_h : length (v2_h s) = m;
  vi_q : length (v2_q s) = m;
  vi_p : length (v2_p s) = m;
  vi_b : length (v2_b s) = m;
  vi_a : v2_a s < m;
  vi_range : forall x c, v2_p s !! x = Some c -> c < m;
  vi_sum : zsum (v2_b s) = 1%Z;
  vi_above : forall x z, v2_a s < x -> v2_b s !! x = Some z -> (z <= 0)%Z;
}.

(** The effect of [v2_touch]. *)
Definition touched (i x : nat) (qp : list nat * list nat) : list nat * list nat :=
  if decide (qp.1 !! x = Some i) then qp else (<[x := i]> qp.1, <[x := x]> qp.2).

Lemma touch_eq i x q p : x < length q -> x < length p -> v2_touch i x q p = Some (touched i x (q, p)).
Proof.
  intros H1 H2. unfold v2_touch, touched. destruct (lookup_lt_is_Some_2 q x H1) as [qx Eq].
  destruct (lookup_lt_is_Some_2 p x H2) as [px Ep]. rewrite Eq, Ep. cbn [mbind option_bind fst snd].
  destruct (Nat.eqb_spec qx i) as [->|Hne]; [by rewrite decide_True by (by rewrite Eq)|].
  rewrite decide_False; [done|]. rewrite Eq. congruence.
Qed.

Lemma touched_length i x qp : length (touched i x qp).1 = length qp.1 /\ length (touched i x qp).2 = length qp.2.
Proof. unfold touched. case_decide; [done|]. cbn. by rewrite !insert_length. Qed.

Lemma touched_range i x qp : x < m -> (forall y c, qp.2 !! y = Some c -> c < m) ->
  forall y c, (touched i x qp).2 !! y = Some c -> c < m.
Proof.
  intros Hx Hr y c. unfold touched. case_decide; [apply Hr|]. cbn.
  intros [(-> & -> & _)|[_ H']]%list_lookup_insert_Some; [done|by eapply Hr].
Qed.

(** The arrays after the swap of a round, the cell it looks at and the value it offers. *)
Definition swap_qp (i : nat) (seed : N) (j : nat) (s : v2_state) : list nat * list nat :=
  let qp := touched i (pick seed m j) (touched i j (v2_q s, v2_p s)) in (qp.1, swapped qp.2 j (pick seed m j)).
Definition value (seed : N) (j : nat) : f32 := f32_add (unit2 seed m j) (f32_of_N (N.of_nat j)).

Lemma swapped_length l j k : length (swapped l j k) = length l.
Proof. unfold swapped. destruct (l !! j), (l !! k); try done. by rewrite !insert_length. Qed.

Lemma swapped_range (P : nat -> Prop) l j k : (forall y c, l !! y = Some c -> P c) ->
  forall y c, swapped l j k !! y = Some c -> P c.
Proof.
  intros Hr y c. unfold swapped. destruct (l !! j) as [x|] eqn:E1; [|apply Hr].
  destruct (l !! k) as [z|] eqn:E2; [|apply Hr].
  intros [(-> & -> & _)|[_ H']]%list_lookup_insert_Some; [by eapply Hr|].
  apply list_lookup_insert_Some in H' as [(-> & -> & _)|[_ H']]; by eapply Hr.
Qed.

Lemma swap_qp_ok i seed j s : v2_inv s -> j < m ->
  length (swap_qp i seed j s).1 = m /\ length (swap_qp i seed j s).2 = m /\
  forall x c, (swap_qp i seed j s).2 !! x = Some c -> c < m.
Proof.
  intros Hi Hj. pose proof (Hk seed j Hj) as Hp. unfold swap_qp. cbn [fst snd].
  rewrite swapped_length, !(proj1 (touched_length _ _ _)), !(proj2 (touched_length _ _ _)).
  cbn [fst snd]. split_and!; [apply Hi|apply Hi|].
  apply swapped_range. apply touched_range; [lia|]. apply touched_range; [lia|]. apply Hi.
Qed.

(** One round. *)
Lemma round_eq i seed j s : v2_inv s -> j <= v2_a s ->
  let qp := swap_qp i seed j s in
  exists c hc s', qp.2 !! j = Some c /\ c < m /\ v2_h s !! c = Some hc /\
    v2_round unit2 pick m i seed j s = Some s' /\ v2_inv s' /\
    v2_q s' = qp.1 /\ v2_p s' = qp.2 /\ v2_a s' <= v2_a s /\
    v2_h s' = (if f32_lt (value seed j) hc then <[c := value seed j]> (v2_h s) else v2_h s) /\
    exists j2, N.of_nat j2 = N.min (f32_as_usize hc) (N.of_nat (m - 1)) /\
    if f32_lt (value seed j) hc && (j <? j2) then
      (exists bj2 bj, v2_b s !! j2 = Some bj2 /\ v2_b s !! j = Some bj /\
         v2_b s' = <[j := (bj + 1)%Z]> (<[j2 := (bj2 - 1)%Z]> (v2_b s))) /\
      (v2_b s' !! v2_a s = Some 0%Z \/ v2_a s' = v2_a s)
    else v2_b s' = v2_b s /\ v2_a s' = v2_a s.
Proof.
  intros Hi Hja. cbn zeta. pose proof (vi_a s Hi) as Ham. pose proof (Hk seed j ltac:(lia)) as Hp.
  destruct (swap_qp_ok i seed j s Hi ltac:(lia)) as (Lq & Lp & Hr).
  destruct (lookup_lt_is_Some_2 (swap_qp i seed j s).2 j) as [c Hc]; [lia|].
  pose proof (Hr _ _ Hc) as Hcm.
  destruct (lookup_lt_is_Some_2 (v2_h s) c) as [hc Hhc]; [by rewrite (vi_h s Hi)|].
  exists c, hc.
  set (R := v2_round unit2 pick m i seed j s).
  set (j2 := N.to_nat (N.min (f32_as_usize hc) (N.of_nat (m - 1)))).
  assert (Ej2 : N.of_nat j2 = N.min (f32_as_usize hc) (N.of_nat (m - 1))) by apply N2Nat.id.
  assert (ER : R = (let rpj := value seed j in
    if f32_lt rpj hc then
      let h := <[c := rpj]> (v2_h s) in
      if (j <? j2)%nat then
        bj2 ← v2_b s !! j2;
        let b := <[j2 := (bj2 - 1)%Z]> (v2_b s) in
        bj ← b !! j;
        let b := <[j := (bj + 1)%Z]> b in
        a ← v2_lower b (v2_a s);
        Ok (V2 h a (swap_qp i seed j s).1 (swap_qp i seed j s).2 b)
      else Ok (V2 h (v2_a s) (swap_qp i seed j s).1 (swap_qp i seed j s).2 (v2_b s))
    else Ok (V2 (v2_h s) (v2_a s) (swap_qp i seed j s).1 (swap_qp i seed j s).2 (v2_b s)))).
  { unfold R, v2_round.
    rewrite touch_eq by (rewrite ?(vi_q s Hi), ?(vi_p s Hi); lia). cbn [mbind option_bind].
    set (qp1 := touched i j (v2_q s, v2_p s)).
    assert (L1 : length qp1.1 = m /\ length qp1.2 = m).
    { unfold qp1. rewrite (proj1 (touched_length _ _ _)), (proj2 (touched_length _ _ _)). split; apply Hi. }
    rewrite touch_eq by (destruct L1; lia). cbn [mbind option_bind]. rewrite <- surjective_pairing.
    change (touched i (pick seed m j) qp1) with (touched i (pick seed m j) (touched i j (v2_q s, v2_p s))).
    assert (L2 : length (touched i (pick seed m j) qp1).2 = m).
    { rewrite (proj2 (touched_length _ _ _)). apply L1. }
    unfold swap_qp in Hc |- *. cbn [fst snd] in *.
    set (p := (touched i (pick seed m j) (touched i j (v2_q s, v2_p s))).2) in *.
    assert (Lpp : length p = m) by (exact L2).
    destruct (lookup_lt_is_Some_2 p j) as [pj Ej]; [lia|].
    destruct (lookup_lt_is_Some_2 p (pick seed m j)) as [pk Ek]; [lia|].
    unfold swapped in Hc |- *. rewrite Ej, Ek in Hc |- *. cbn [mbind option_bind].
    rewrite Hc. cbn [mbind option_bind]. rewrite Hhc. cbn [mbind option_bind]. reflexivity. }
  rewrite ER. cbn zeta. clear ER R. clearbody j2.
  destruct (f32_lt (value seed j) hc) eqn:Elt; cbn [andb].
  2:{ eexists. split_and!; try reflexivity; try done; [split; cbn; try apply Hi; done|]. by exists j2. }
  destruct (Nat.ltb_spec j j2) as [Hj2|Hj2].
  2:{ eexists. split_and!; try reflexivity; try done.
      - split; cbn; try apply Hi; try done. rewrite insert_length. apply Hi.
      - exists j2. split; [done|]. by rewrite (proj2 (Nat.ltb_ge _ _) Hj2). }
  assert (Hj2m : j2 < m) by lia.
  destruct (lookup_lt_is_Some_2 (v2_b s) j2) as [bj2 E2]; [by rewrite (vi_b s Hi)|].
  destruct (lookup_lt_is_Some_2 (v2_b s) j) as [bj E1]; [rewrite (vi_b s Hi); lia|].
  rewrite E2. cbn [mbind option_bind]. rewrite list_lookup_insert_ne by lia. rewrite E1. cbn [mbind option_bind].
  set (b := <[j := (bj + 1)%Z]> (<[j2 := (bj2 - 1)%Z]> (v2_b s))).
  assert (Lb : length b = m) by (unfold b; rewrite !insert_length; apply Hi).
  assert (Sb : zsum b = 1%Z).
  { unfold b. rewrite (zsum_insert _ _ bj) by (by rewrite list_lookup_insert_ne by lia).
    rewrite (zsum_insert _ _ bj2) by done. rewrite (vi_sum s Hi). lia. }
  assert (Ab : forall x z, v2_a s < x -> b !! x = Some z -> (z <= 0)%Z).
  { intros x z Hx. unfold b. rewrite list_lookup_insert_ne by lia.
    intros [(<- & <- & _)|[_ Hz]]%list_lookup_insert_Some.
    - pose proof (vi_above s Hi _ _ Hx E2). lia.
    - by apply (vi_above s Hi x). }
  destruct (lower_spec b (v2_a s)) as (a' & Ea & Hle & Hab & _ & Hor); [lia|done|done|].
  rewrite Ea. cbn [mbind option_bind]. eexists. split_and!; try reflexivity; try done.
  - split; cbn; try apply Hi; try done; try lia.
    rewrite insert_length. apply Hi.
  - exists j2. split; [done|]. rewrite (proj2 (Nat.ltb_lt _ _) Hj2). split; [by exists bj2, bj|done].
Qed.

(** The loop and the tokens, as an invariant rule. *)
Lemma while_rule (I : nat -> v2_state -> Prop) i seed :
  (forall j s s', v2_inv s -> I j s -> j <= v2_a s -> v2_round unit2 pick m i seed j s = Some s' -> I (S j) s') ->
  forall fuel j s, v2_inv s -> I j s -> m - j <= fuel ->
  exists j' s', v2_while unit2 pick fuel m i seed j s = Some s' /\ v2_inv s' /\ I j' s' /\ v2_a s' < j' /\ j <= j'.
Proof.
  intros Hstep fuel. induction fuel as [|fuel IH]; intros j s Hi HI Hf.
  - pose proof (vi_a s Hi). cbn [v2_while]. rewrite (proj2 (Nat.leb_gt _ _)) by lia. exists j, s. split_and!; try done; lia.
  - cbn [v2_while]. destruct (Nat.leb_spec j (v2_a s)) as [Hle|Hgt].
    2:{ exists j, s. split_and!; try done; lia. }
    destruct (round_eq i seed j s Hi Hle) as (c & hc & s' & _ & _ & _ & E & Hi' & _).
    rewrite E. cbn [mbind option_bind]. 
    destruct (IH (S j) s') as (j' & s'' & E' & H1 & H2 & H3 & H4); [done|by apply (Hstep j s s' Hi HI Hle E)|lia|].
    exists j', s''. split_and!; try done; lia.
Qed.

Lemma tokens_ok ts i s : v2_inv s -> exists s', v2_tokens unit2 pick m i ts s = Some s' /\ v2_inv s'.
Proof.
  revert i s. induction ts as [|t ts IH]; intros i s Hi; [by exists s|]. cbn [v2_tokens].
  destruct (while_rule (fun _ _ => True) i t (fun _ _ _ _ _ _ _ => I) m 0 s Hi I) as (_ & s' & -> & Hi' & _); [lia|].
  cbn [mbind option_bind]. by apply IH.
Qed.

Lemma start_ok : 0 < m -> exists s, v2_start m = Some s /\ v2_inv s /\
  s = V2 (replicate m initial) (m - 1) (replicate m 0) (replicate m 0) (replicate (m - 1) (-1)%Z ++ [Z.of_nat m]).
Proof.
  intros Hm. destruct m as [|m'] eqn:Em; [lia|]. eexists. split; [reflexivity|].
  assert (E : S m' - 1 = m') by lia. rewrite E. split; [|done].
  split; cbn [v2_h v2_a v2_q v2_p v2_b]; try (rewrite replicate_length; lia); try lia.
  - rewrite app_length, replicate_length. cbn. lia.
  - intros x c Hc. apply lookup_replicate in Hc as [-> _]. lia.
  - assert (Hz : forall n l, zsum (replicate n (-1)%Z ++ l) = (zsum l - Z.of_nat n)%Z).
    { clear. intros n l. induction n as [|n IH]; [cbn [replicate app]; lia|]. cbn [replicate app]. change (zsum (-1 :: replicate n (-1) ++ l)%Z) with (-1 + zsum (replicate n (-1) ++ l))%Z. rewrite IH. lia. }
    rewrite Hz. cbn. lia.
  - intros x z Hx Hz. apply lookup_lt_Some in Hz. rewrite app_length, replicate_length in Hz. cbn in Hz. lia.
Qed.
End V2.
