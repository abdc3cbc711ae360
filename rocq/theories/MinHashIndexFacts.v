(** Invariants of the MinHash index over arbitrary histories. *)
From stdpp Require Import base list gmap.
From Coq Require Import NArith.
From Verif Require Import Base Par ParFacts Float Similarity SimilarityFacts
  Container ContainerFacts MinHashIndex SpecIndex.

(** ** Generic loops *)
Lemma for_each_mut_total {S} (f : S -> option S) l :
  (forall s, s ∈ l -> is_Some (f s)) ->
  exists l', for_each_mut f l = (l', false) /\ Forall2 (fun s s' => f s = Some s') l l'.
Proof.
  induction l as [|s l IH]; intros Hf; simpl.
  - exists []. split; [done|constructor].
  - destruct (Hf s) as [s' Hs']; [left|]. rewrite Hs'.
    destruct IH as (l' & Heq & HF); [intros; apply Hf; by right|].
    rewrite Heq. simpl. exists (s' :: l'). split; [done|]. by constructor.
Qed.

Lemma filter_res_Some {A} (p : A -> res bool) l l' :
  filter_res p l = Some l' -> forall x, x ∈ l' <-> x ∈ l /\ p x = Some true.
Proof.
  revert l'. induction l as [|y l IH]; intros l' Hf x; simpl in Hf.
  - injection Hf as <-. set_solver.
  - destruct (p y) as [k|] eqn:Ep; [|done]. simpl in Hf.
    destruct (filter_res p l) as [l1|] eqn:E; [|done]. simpl in Hf. injection Hf as <-.
    destruct k.
    + rewrite !elem_of_cons, (IH l1) by done. split.
      * intros [->|[? ?]]; auto.
      * intros [[->|?] ?]; auto.
    + rewrite (IH l1) by done. rewrite elem_of_cons. split.
      * intros [? ?]; auto.
      * intros [[->|?] ?]; [congruence|auto].
Qed.

Lemma filter_res_total {A} (p : A -> res bool) l :
  (forall x, x ∈ l -> is_Some (p x)) -> is_Some (filter_res p l).
Proof.
  induction l as [|y l IH]; intros Hf; simpl; [eauto|].
  destruct (Hf y) as [k ->]; [left|]. simpl.
  destruct IH as [l' ->]; [intros; apply Hf; by right|]. simpl. eauto.
Qed.

Lemma slice_Some {A} (l : list A) s e :
  s <= e <= length l -> slice l s e = Some (take (e - s) (drop s l)).
Proof. intros. unfold slice. by rewrite decide_True. Qed.

Lemma slice_None {A} (l : list A) s e : length l < e -> slice l s e = None.
Proof. intros. unfold slice. rewrite decide_False; [done|lia]. Qed.

Section Facts.
Context {T : Type} `{!EqDecision T}.
Context {Id : Type} `{Countable Id}.
Context (K : id_container Id) (L : container_laws K).
Context (bh : list T -> N) (nb bw : nat).

Notation band := (band (carrier K)).
Notation index := (index (carrier K) Id T).
Notation smap := (gmap Id (list T)).
Implicit Types (b : band) (m : index) (sm : smap) (s q : list T).

Notation bkey i s := (bh (nth_band bw i s)).

(** ** One band *)
Definition in_band b (k : N) (x : Id) : Prop :=
  exists c, hash_table b !! k = Some c /\ x ∈ ic_elems K c.

Record band_ok (i : nat) b : Prop := {
  ok_start : band_start b = i * bw;
  ok_end : band_end b = (i + 1) * bw;
  ok_ne : forall k c, hash_table b !! k = Some c -> ic_elems K c ≠ [];
}.

Definition band_nodup b : Prop :=
  forall k c, hash_table b !! k = Some c -> NoDup (ic_elems K c).

Lemma band_key_ok i b s :
  band_ok i b -> (i + 1) * bw <= length s -> band_key K bh b s = Some (bkey i s).
Proof.
  intros [Hs He _] Hl. unfold band_key. rewrite Hs, He, slice_Some by lia. simpl.
  unfold nth_band. do 3 f_equal. lia.
Qed.

Lemma band_key_short i b s :
  band_ok i b -> length s < (i + 1) * bw -> band_key K bh b s = None.
Proof. intros [Hs He _] Hl. unfold band_key. by rewrite Hs, He, slice_None. Qed.

Lemma band_insert_ok i b id s :
  band_ok i b -> (i + 1) * bw <= length s ->
  exists b', band_insert K bh id s b = Some b' /\ band_ok i b' /\
    (forall k x, in_band b' k x <-> in_band b k x \/ (k = bkey i s /\ x = id)) /\
    (band_nodup b -> ~ in_band b (bkey i s) id -> band_nodup b').
Proof.
  intros Hb Hl. unfold band_insert. rewrite (band_key_ok i) by done. simpl.
  eexists. split; [done|]. pose proof Hb as [Hs He Hne].
  set (k0 := bkey i s). set (c := default _ _).
  assert (Hc : forall x, x ∈ ic_elems K c <-> in_band b k0 x).
  { intros x. unfold c, in_band. destruct (hash_table b !! k0) as [c'|] eqn:E; simpl.
    - split; [by eauto|]. intros (? & [= <-] & ?). done.
    - rewrite (law_new K L). split; [set_solver|]. intros (? & ? & ?). done. }
  split; [|split].
  - split; simpl; [done|done|]. intros k c' Hk Hnil.
    destruct (decide (k = k0)) as [->|Hk0].
    + rewrite lookup_insert in Hk. injection Hk as <-.
      assert (id ∈ ic_elems K (ic_push K id c)) as Hin by (apply (law_push K L); by left).
      rewrite Hnil in Hin. by apply elem_of_nil in Hin.
    + rewrite lookup_insert_ne in Hk by done. by eapply Hne.
  - intros k x. unfold in_band at 1. simpl. destruct (decide (k = k0)) as [->|Hk0].
    + rewrite lookup_insert. split.
      * intros (c' & [= <-] & Hx). apply (law_push K L) in Hx as [->|Hx]; [by right|].
        left. by apply Hc.
      * intros [Hx|[_ ->]]; eexists; (split; [done|]); apply (law_push K L); [right|by left].
        by apply Hc.
    + rewrite lookup_insert_ne by done. split; [|intros [?|[? ?]]; done].
      intros ?. by left.
  - intros Hnd Hni k c' Hk. simpl in Hk. destruct (decide (k = k0)) as [->|Hk0].
    + rewrite lookup_insert in Hk. injection Hk as <-. apply (law_push_nodup K L).
      * by rewrite Hc.
      * unfold c. destruct (hash_table b !! k0) eqn:E; simpl; [by eapply Hnd|].
        rewrite (law_new K L). constructor.
    + rewrite lookup_insert_ne in Hk by done. by eapply Hnd.
Qed.

Lemma band_insert_short i b id s :
  band_ok i b -> length s < (i + 1) * bw -> band_insert K bh id s b = None.
Proof. intros Hb Hl. unfold band_insert. by rewrite (band_key_short i). Qed.

Lemma band_remove_ok i b id s :
  band_ok i b -> (i + 1) * bw <= length s ->
  exists b', band_remove K bh id s b = Some b' /\ band_ok i b' /\
    (forall k x, in_band b' k x -> in_band b k x) /\
    (forall k x, x ≠ id \/ k ≠ bkey i s -> in_band b k x -> in_band b' k x) /\
    (band_nodup b -> band_nodup b' /\ ~ in_band b' (bkey i s) id).
Proof.
  intros Hb Hl. unfold band_remove. rewrite (band_key_ok i) by done. simpl.
  eexists. split; [done|]. pose proof Hb as [Hs He Hne].
  set (k0 := bkey i s).
  destruct (hash_table b !! k0) as [c|] eqn:E.
  2:{ split; [done|]. split; [done|]. split; [done|]. intros Hnd. split; [done|].
      intros (c & Hc & _). fold k0 in Hc. congruence. }
  set (c' := ic_remove K id c).
  assert (Hempty : ic_is_empty K c' = true <-> ic_elems K c' = []).
  { unfold ic_is_empty. rewrite Nat.eqb_eq, (law_len K L). apply length_zero_iff_nil. }
  assert (Hlk : forall k, (if ic_is_empty K c' then delete k0 (hash_table b)
                 else <[k0 := c']> (hash_table b)) !! k =
                if decide (k = k0) then
                  if ic_is_empty K c' then None else Some c'
                else hash_table b !! k).
  { intros k. destruct (decide (k = k0)) as [->|Hk]; destruct (ic_is_empty K c').
    - apply lookup_delete.
    - apply lookup_insert.
    - by apply lookup_delete_ne.
    - by apply lookup_insert_ne. }
  split; [|split; [|split]].
  - split; simpl; [done|done|]. intros k d. rewrite Hlk.
    destruct (decide (k = k0)); [|apply Hne].
    destruct (ic_is_empty K c') eqn:Ee; [done|]. intros [= <-] Hn.
    apply Hempty in Hn. congruence.
  - intros k x (d & Hd & Hx). simpl in Hd. rewrite Hlk in Hd.
    destruct (decide (k = k0)) as [->|]; [|by exists d].
    destruct (ic_is_empty K c') eqn:Ee; [done|]. injection Hd as <-.
    exists c. split; [done|]. by eapply (law_remove_sub K L).
  - intros k x Hor (d & Hd & Hx). unfold in_band. simpl. rewrite Hlk.
    destruct (decide (k = k0)) as [->|]; [|by exists d].
    rewrite E in Hd. injection Hd as <-. destruct Hor as [Hxne|]; [|done].
    assert (Hx' : x ∈ ic_elems K c') by (by apply (law_remove_ne K L)).
    destruct (ic_is_empty K c') eqn:Ee; [|by exists c'].
    assert (ic_elems K c' = []) as Hn by (by apply Hempty).
    rewrite Hn in Hx'. by apply elem_of_nil in Hx'.
  - intros Hnd. destruct (law_remove_nodup K L id c (Hnd _ _ E)) as [Hnd' Hni].
    split.
    + intros k d. simpl. rewrite Hlk. destruct (decide (k = k0)); [|apply Hnd].
      destruct (ic_is_empty K c') eqn:Ee; [done|]. by intros [= <-].
    + intros (d & Hd & Hx). simpl in Hd. fold k0 in Hd. rewrite Hlk, decide_True in Hd by done.
      destruct (ic_is_empty K c') eqn:Ee; [done|]. injection Hd as <-. done.
Qed.

(** ** Loops over one band *)
Lemma insert_loop_mono i b ps :
  band_ok i b ->
  band_ok i (seq_loop (bulk_body K bh) ps b).1 /\
  (forall k x, in_band b k x -> in_band (seq_loop (bulk_body K bh) ps b).1 k x).
Proof.
  revert b. induction ps as [|p ps IH]; intros b Hb; simpl; [auto|].
  unfold bulk_body at 1 3. destruct (decide ((i + 1) * bw <= length p.2)) as [Hl|Hl].
  - destruct (band_insert_ok i b p.1 p.2 Hb Hl) as (b' & -> & Hb' & Hin & _).
    destruct (IH b' Hb') as [H1 H2]. split; [done|]. intros k x Hx. apply H2, Hin. by left.
  - rewrite (band_insert_short i) by (done || lia). auto.
Qed.

Lemma insert_loop_full i b ps :
  band_ok i b -> Forall (fun p => (i + 1) * bw <= length p.2) ps ->
  (seq_loop (bulk_body K bh) ps b).2 = false /\
  (forall k x, in_band (seq_loop (bulk_body K bh) ps b).1 k x <->
     in_band b k x \/ exists s, (x, s) ∈ ps /\ k = bkey i s) /\
  (band_nodup b -> NoDup ps.*1 ->
     (forall k p, p ∈ ps -> ~ in_band b k p.1) ->
     band_nodup (seq_loop (bulk_body K bh) ps b).1).
Proof.
  revert b. induction ps as [|p ps IH]; intros b Hb Hps; simpl.
  - split; [done|]. split; [|auto]. intros k x. split; [auto|].
    intros [?|(? & Hn & _)]; [done|]. by apply elem_of_nil in Hn.
  - apply Forall_cons in Hps as [Hl Hps]. unfold bulk_body at 1 3 5.
    destruct (band_insert_ok i b p.1 p.2 Hb Hl) as (b' & -> & Hb' & Hin & Hnd).
    destruct (IH b' Hb' Hps) as (H1 & H2 & H3). split; [done|]. split.
    + intros k x. rewrite H2, Hin. destruct p as [y t]; simpl. split.
      * intros [[?|[-> ->]]|(s & ? & ->)]; [by left|right..].
        -- exists t. split; [by left|done].
        -- exists s. split; [by right|done].
      * intros [?|(s & Hs & ->)]; [auto|]. apply elem_of_cons in Hs as [[= -> ->]|Hs]; [auto|].
        right. by exists s.
    + intros Hn Hdup Hfresh. apply NoDup_cons in Hdup as [Hd1 Hd2]. apply H3.
      * apply Hnd; [done|]. apply Hfresh. by left.
      * done.
      * intros k p' Hp' Hin'. apply Hin in Hin' as [Hin'|[_ Heq]].
        -- apply (Hfresh k p'); [by right|done].
        -- apply Hd1. rewrite <- Heq. apply elem_of_list_fmap. eauto.
Qed.

Lemma insert_loop_panic i b ps :
  band_ok i b ->
  (seq_loop (bulk_body K bh) ps b).2 = true <-> Exists (fun p => length p.2 < (i + 1) * bw) ps.
Proof.
  revert b. induction ps as [|p ps IH]; intros b Hb; simpl.
  - rewrite Exists_nil. done.
  - rewrite Exists_cons. unfold bulk_body at 1.
    destruct (decide ((i + 1) * bw <= length p.2)) as [Hl|Hl].
    + destruct (band_insert_ok i b p.1 p.2 Hb Hl) as (b' & -> & Hb' & _).
      rewrite IH by done. split; [auto|]. intros [?|?]; [lia|done].
    + rewrite (band_insert_short i) by (done || lia). simpl. split; [|done]. left. lia.
Qed.

Lemma remove_loop_ok i b (ps : list (list T * Id)) :
  band_ok i b -> Forall (fun p => (i + 1) * bw <= length p.1) ps ->
  (seq_loop (bulk_remove_body K bh) ps b).2 = false /\
  band_ok i (seq_loop (bulk_remove_body K bh) ps b).1 /\
  (forall k x, in_band (seq_loop (bulk_remove_body K bh) ps b).1 k x -> in_band b k x) /\
  (forall k x, (forall s, (s, x) ∈ ps -> k ≠ bkey i s) -> in_band b k x ->
     in_band (seq_loop (bulk_remove_body K bh) ps b).1 k x) /\
  (band_nodup b -> band_nodup (seq_loop (bulk_remove_body K bh) ps b).1 /\
     forall s x, (s, x) ∈ ps -> ~ in_band (seq_loop (bulk_remove_body K bh) ps b).1 (bkey i s) x).
Proof.
  revert b. induction ps as [|p ps IH]; intros b Hb Hps; simpl.
  - split; [done|]. split; [done|]. split; [auto|]. split; [auto|].
    intros Hn. split; [done|]. by intros s x ?%elem_of_nil.
  - apply Forall_cons in Hps as [Hl Hps]. unfold bulk_remove_body at 1 3 5 7 9 11.
    destruct p as [t y]; simpl in *.
    destruct (band_remove_ok i b y t Hb Hl) as (b' & -> & Hb' & Hsub & Hkeep & Hnd).
    destruct (IH b' Hb' Hps) as (H1 & H2 & H3 & H4 & H5). split; [done|]. split; [done|].
    split; [auto|]. split.
    + intros k x Hni Hx. apply H4.
      * intros s Hs. apply Hni. by right.
      * apply Hkeep; [|done]. destruct (decide (x = y)) as [->|]; [right|by left].
        apply Hni. by left.
    + intros Hn. destruct (Hnd Hn) as [Hn' Hgone]. destruct (H5 Hn') as [H6 H7].
      split; [done|]. intros s x Hs. apply elem_of_cons in Hs as [[= -> ->]|Hs]; [|auto].
      intros Hin. by apply Hgone, H3.
Qed.

(** ** The index invariant *)
Definition covers (i : nat) sm b : Prop :=
  forall x s, sm !! x = Some s -> in_band b (bkey i s) x.

Record Inv (th : f64) m sm : Prop := {
  inv_len : length (bands m) = nb;
  inv_band : forall i b, bands m !! i = Some b -> band_ok i b /\ covers i sm b;
  inv_sigs : id_signatures m = sm;
  inv_th : threshold m = th;
  inv_n : num_hashes m = nb * bw;
  inv_b : idx_b m = nb;
  inv_r : idx_r m = bw;
  inv_size : forall x s, sm !! x = Some s -> nb * bw <= length s;
}.

(** Bucket contents are exact (clean histories). *)
Definition exact (i : nat) sm b : Prop :=
  (forall k x, in_band b k x <-> exists s, sm !! x = Some s /\ k = bkey i s) /\ band_nodup b.

Lemma new_inv th : Inv th (new_index K nb bw th) ∅.
Proof.
  split; simpl; try done.
  - by rewrite fmap_length, seq_length.
  - intros i b. rewrite list_lookup_fmap. intros (j & Hj & ->)%fmap_Some.
    apply lookup_seq in Hj as [-> Hj]. split; [|by intros x s].
    split; simpl; [lia|lia|]. by intros k c.
Qed.

Lemma new_exact th i b : bands (new_index K nb bw th : index) !! i = Some b -> exact i ∅ b.
Proof.
  simpl. rewrite list_lookup_fmap. intros (j & Hj & ->)%fmap_Some. split.
  - intros k x. split.
    + intros (c & Hc & _). done.
    + by intros (s & Hs & _).
  - by intros k c Hc.
Qed.

Lemma band_le i b m : length (bands m) = nb -> bands m !! i = Some b -> (i + 1) * bw <= nb * bw.
Proof.
  intros Hlen Hi. apply lookup_lt_Some in Hi. rewrite Hlen in Hi.
  apply Nat.mul_le_mono_r. lia.
Qed.

Lemma insert_inv th m sm id s :
  Inv th m sm ->
  Inv th (insert K bh id s m).1 (spec_step (nb * bw) sm (Insert id s)) /\
  spec_out (nb * bw) sm (Insert id s) (insert K bh id s m).2.
Proof.
  intros HI. pose proof HI as [Hlen Hband Hsig Hth Hn Hb Hr Hsz].
  unfold insert. simpl. rewrite Hn.
  destruct (decide (nb * bw = length s)) as [Hl|Hl].
  2:{ rewrite !decide_False by congruence. simpl. auto. }
  rewrite decide_True by congruence.
  destruct (for_each_mut_total (band_insert K bh id s) (bands m)) as (l' & Heq & HF).
  { intros b Hbin. apply elem_of_list_lookup in Hbin as [i Hi].
    destruct (Hband i b Hi) as [Hok _].
    destruct (band_insert_ok i b id s Hok) as (b' & -> & _); [|eauto].
    pose proof (band_le _ _ _ Hlen Hi). lia. }
  rewrite Heq. simpl. split; [|by rewrite decide_True].
  split; simpl; try done.
  - rewrite <- (Forall2_length _ _ _ HF). done.
  - intros i b' Hi'. destruct (Forall2_lookup_r _ _ _ _ _ HF Hi') as (b & Hi & Hbi).
    destruct (Hband i b Hi) as [Hok Hcov].
    destruct (band_insert_ok i b id s Hok) as (b1 & Hb1 & Hok1 & Hin & _).
    { pose proof (band_le _ _ _ Hlen Hi). lia. }
    rewrite Hbi in Hb1. injection Hb1 as <-. split; [done|].
    intros x t. destruct (decide (x = id)) as [->|Hx].
    + rewrite lookup_insert. intros [= <-]. apply Hin. by right.
    + rewrite lookup_insert_ne by done. intros Ht. apply Hin. left. by apply Hcov.
  - by rewrite Hsig.
  - intros x t. destruct (decide (x = id)) as [->|Hx].
    + rewrite lookup_insert. intros [= <-]. lia.
    + rewrite lookup_insert_ne by done. apply Hsz.
Qed.

Lemma insert_exact th m sm id s :
  Inv th m sm -> (length s = nb * bw -> sm !! id = None) ->
  (forall i b, bands m !! i = Some b -> exact i sm b) ->
  forall i b, bands (insert K bh id s m).1 !! i = Some b ->
    exact i (spec_step (nb * bw) sm (Insert id s)) b.
Proof.
  intros HI Hfresh Hex. pose proof HI as [Hlen Hband Hsig Hth Hn Hb Hr Hsz].
  unfold insert. simpl. rewrite Hn.
  destruct (decide (nb * bw = length s)) as [Hl|Hl].
  2:{ rewrite !decide_False by congruence. simpl. auto. }
  rewrite decide_True by congruence. specialize (Hfresh (eq_sym Hl)).
  destruct (for_each_mut_total (band_insert K bh id s) (bands m)) as (l' & Heq & HF).
  { intros b Hbin. apply elem_of_list_lookup in Hbin as [i Hi].
    destruct (Hband i b Hi) as [Hok _].
    destruct (band_insert_ok i b id s Hok) as (b' & -> & _); [|eauto].
    pose proof (band_le _ _ _ Hlen Hi). lia. }
  rewrite Heq. simpl. intros i b' Hi'.
  destruct (Forall2_lookup_r _ _ _ _ _ HF Hi') as (b & Hi & Hbi).
  destruct (Hband i b Hi) as [Hok Hcov]. destruct (Hex i b Hi) as [Hex1 Hex2].
  destruct (band_insert_ok i b id s Hok) as (b1 & Hb1 & Hok1 & Hin & Hnd).
  { pose proof (band_le _ _ _ Hlen Hi). lia. }
  rewrite Hbi in Hb1. injection Hb1 as <-. split.
  - intros k x. rewrite Hin, Hex1. split.
    + intros [(t & Ht & ->)|[-> ->]].
      * exists t. rewrite lookup_insert_ne by congruence. auto.
      * exists s. by rewrite lookup_insert.
    + intros (t & Ht & ->). destruct (decide (x = id)) as [->|Hx].
      * rewrite lookup_insert in Ht. injection Ht as <-. by right.
      * rewrite lookup_insert_ne in Ht by done. left. eauto.
  - apply Hnd; [done|]. rewrite Hex1. intros (t & Ht & _). congruence.
Qed.

(** *** Bulk insertion *)
Lemma insert_all_pairs (ps : list (Id * list T)) sm : insert_all ps sm = insert_pairs ps sm.
Proof.
  revert sm. induction ps as [|p ps IH]; intros sm.
  - unfold insert_all, insert_pairs. simpl. by rewrite (left_id_L ∅ (∪)).
  - unfold insert_all in *. simpl. rewrite IH. unfold insert_pairs.
    rewrite reverse_cons, list_to_map_app, <- (assoc_L (∪)). f_equal.
    simpl. rewrite insert_empty. by rewrite insert_union_singleton_l.
Qed.

Lemma insert_pairs_lookup (ps : list (Id * list T)) sm x s :
  insert_pairs ps sm !! x = Some s -> (x, s) ∈ ps \/ (sm !! x = Some s /\ x ∉ ps.*1).
Proof.
  unfold insert_pairs. rewrite lookup_union_Some_raw. intros [Hl|[Hn Hs]].
  - left. apply elem_of_list_to_map_2 in Hl. by apply elem_of_reverse.
  - right. split; [done|]. apply not_elem_of_list_to_map in Hn.
    intros Hx. apply Hn. rewrite fmap_reverse. by apply elem_of_reverse.
Qed.

Lemma insert_pairs_lookup_nodup (ps : list (Id * list T)) sm x s :
  NoDup ps.*1 -> (x, s) ∈ ps -> insert_pairs ps sm !! x = Some s.
Proof.
  intros Hnd Hx. unfold insert_pairs. apply lookup_union_Some_l, elem_of_list_to_map_1.
  - rewrite fmap_reverse. by rewrite reverse_Permutation.
  - by apply elem_of_reverse.
Qed.

Lemma insert_pairs_lookup_old (ps : list (Id * list T)) sm x :
  x ∉ ps.*1 -> insert_pairs ps sm !! x = sm !! x.
Proof.
  intros Hx. unfold insert_pairs. apply lookup_union_r.
  apply not_elem_of_list_to_map. rewrite fmap_reverse. by rewrite elem_of_reverse.
Qed.

Lemma bulk_panic th m sm sched ps :
  Inv th m sm ->
  (par_for_each (bulk_body K bh) sched ps (bands m)).2 = pairs_too_short (nb * bw) ps.
Proof.
  intros [Hlen Hband _ _ _ _ _ _]. rewrite par_for_each_panic. unfold pairs_too_short.
  apply eq_bool_prop_intro. rewrite bool_decide_spec.
  rewrite Is_true_true, existsb_exists. split.
  - intros (b & Hbin & Hp). apply elem_of_list_In, elem_of_list_lookup in Hbin as [i Hi].
    destruct (Hband i b Hi) as [Hok _]. apply (insert_loop_panic i) in Hp; [|done].
    eapply Exists_impl; [exact Hp|]. simpl. intros p Hlt.
    pose proof (band_le _ _ _ Hlen Hi). lia.
  - intros Hex. assert (0 < nb) as Hnb.
    { apply Exists_exists in Hex as (p & _ & Hp). destruct nb; lia. }
    destruct (lookup_lt_is_Some_2 (bands m) (nb - 1)) as [b Hi]; [lia|].
    exists b. split; [eapply elem_of_list_In, elem_of_list_lookup_2; eauto|].
    destruct (Hband _ b Hi) as [Hok _]. apply (insert_loop_panic (nb - 1)); [done|].
    replace (nb - 1 + 1) with nb by lia. done.
Qed.

Lemma bulk_pairs_inv th m sm sched ps :
  Inv th m sm ->
  Inv th (par_bulk_insert_pairs K bh sched ps m).1
         (if pairs_too_short (nb * bw) ps then sm else insert_pairs ps sm) /\
  (par_bulk_insert_pairs K bh sched ps m).2 =
    (if pairs_too_short (nb * bw) ps then OPanic else OUnit).
Proof.
  intros HI. pose proof HI as [Hlen Hband Hsig Hth Hn Hb Hr Hsz].
  unfold par_bulk_insert_pairs. rewrite (bulk_panic th m sm) by done.
  destruct (pairs_too_short (nb * bw) ps) eqn:Ep; simpl; (split; [|done]).
  - pose proof (par_for_each_prefix (bulk_body K bh) sched ps (bands m)) as HF.
    split; simpl; try done.
    + rewrite <- (Forall2_length _ _ _ HF). done.
    + intros i b' Hi'. destruct (Forall2_lookup_r _ _ _ _ _ HF Hi') as (b & Hi & k & ->).
      destruct (Hband i b Hi) as [Hok Hcov].
      destruct (insert_loop_mono i b (take k ps) Hok) as [Hok' Hmono].
      split; [done|]. intros x s Hs. apply Hmono. by apply Hcov.
  - assert (Hlong : Forall (fun p => nb * bw <= length p.2) ps).
    { apply bool_decide_eq_false in Ep. apply not_Exists_Forall in Ep; [|apply _].
      eapply Forall_impl; [exact Ep|]. simpl. intros p; lia. }
    assert (Hbs : (par_for_each (bulk_body K bh) sched ps (bands m)).1 =
      (fun b => (seq_loop (bulk_body K bh) ps b).1) <$> bands m).
    { apply par_for_each_ok. by rewrite (bulk_panic th m sm). }
    split; simpl; try done.
    + by rewrite Hbs, fmap_length.
    + intros i b'. rewrite Hbs, list_lookup_fmap. intros (b & Hi & ->)%fmap_Some.
      destruct (Hband i b Hi) as [Hok Hcov].
      assert (Forall (fun p => (i + 1) * bw <= length p.2) ps) as Hlong'.
      { eapply Forall_impl; [exact Hlong|]. simpl. intros p.
        pose proof (band_le _ _ _ Hlen Hi). lia. }
      destruct (insert_loop_mono i b ps Hok) as [Hok' _].
      destruct (insert_loop_full i b ps Hok Hlong') as (_ & Hin & _).
      split; [done|]. intros x s Hs. apply Hin.
      apply insert_pairs_lookup in Hs as [Hs|[Hs _]]; [right; eauto|left; by apply Hcov].
    + by rewrite Hsig, insert_all_pairs.
    + intros x s Hs. apply insert_pairs_lookup in Hs as [Hs|[Hs _]]; [|eauto].
      rewrite Forall_forall in Hlong. by apply Hlong in Hs.
Qed.

Lemma bulk_pairs_exact th m sm sched ps :
  Inv th m sm ->
  NoDup ps.*1 -> Forall (fun p => sm !! p.1 = None) ps ->
  Forall (fun p => length p.2 = nb * bw) ps ->
  (forall i b, bands m !! i = Some b -> exact i sm b) ->
  forall i b, bands (par_bulk_insert_pairs K bh sched ps m).1 !! i = Some b ->
    exact i (insert_pairs ps sm) b.
Proof.
  intros HI Hnd Hfresh Hlong Hex. pose proof HI as [Hlen Hband Hsig Hth Hn Hb Hr Hsz].
  assert (Ep : pairs_too_short (nb * bw) ps = false).
  { apply bool_decide_eq_false. intros (p & Hp & Hlt)%Exists_exists.
    rewrite Forall_forall in Hlong. apply Hlong in Hp. lia. }
  unfold par_bulk_insert_pairs. rewrite (bulk_panic th m sm), Ep by done. simpl.
  assert (Hbs : (par_for_each (bulk_body K bh) sched ps (bands m)).1 =
    (fun b => (seq_loop (bulk_body K bh) ps b).1) <$> bands m).
  { apply par_for_each_ok. by rewrite (bulk_panic th m sm). }
  rewrite Hbs. intros i b'. rewrite list_lookup_fmap. intros (b & Hi & ->)%fmap_Some.
  destruct (Hband i b Hi) as [Hok Hcov]. destruct (Hex i b Hi) as [Hex1 Hex2].
  assert (Forall (fun p => (i + 1) * bw <= length p.2) ps) as Hlong'.
  { eapply Forall_impl; [exact Hlong|]. simpl. intros p.
    pose proof (band_le _ _ _ Hlen Hi). lia. }
  destruct (insert_loop_full i b ps Hok Hlong') as (_ & Hin & Hnd').
  rewrite Forall_forall in Hfresh. split.
  - intros k x. rewrite Hin, Hex1. split.
    + intros [(s & Hs & ->)|(s & Hs & ->)].
      * exists s. split; [|done]. rewrite insert_pairs_lookup_old; [done|].
        intros ([y t] & -> & Hp)%elem_of_list_fmap. apply Hfresh in Hp. simpl in *. congruence.
      * exists s. split; [|done]. by apply insert_pairs_lookup_nodup.
    + intros (s & Hs & ->). apply insert_pairs_lookup in Hs as [Hs|[Hs _]]; eauto.
  - apply Hnd'; [done|done|]. intros k p Hp Hib. apply Hex1 in Hib as (s & Hs & _).
    apply Hfresh in Hp. congruence.
Qed.

Lemma bulk_inv th m sm sched ids sigs :
  Inv th m sm ->
  Inv th (par_bulk_insert K bh sched ids sigs m).1
         (spec_step (nb * bw) sm (ParBulkInsert sched ids sigs)) /\
  spec_out (nb * bw) sm (ParBulkInsert sched ids sigs) (par_bulk_insert K bh sched ids sigs m).2.
Proof.
  intros HI. unfold par_bulk_insert. simpl. destruct sigs as [|s0 sigs].
  - destruct (bulk_pairs_inv th m sm sched (zip ids ([] : list (list T))) HI) as [H1 H2].
    simpl. rewrite zip_with_nil_r in *. done.
  - simpl. rewrite (inv_n _ _ _ HI). destruct (decide (nb * bw = length s0)) as [Hl|Hl].
    + rewrite bool_decide_false by (intros ?; lia). simpl.
      apply (bulk_pairs_inv th m sm sched (zip ids (s0 :: sigs)) HI).
    + rewrite bool_decide_true by (intros ?; lia). simpl. auto.
Qed.

(** *** Removal *)
Lemma remove_inv th m sm id :
  Inv th m sm ->
  Inv th (remove K bh id m).1 (spec_step (nb * bw) sm (Remove id)) /\
  spec_out (nb * bw) sm (Remove id) (remove K bh id m).2.
Proof.
  intros HI. pose proof HI as [Hlen Hband Hsig Hth Hn Hb Hr Hsz].
  unfold remove. simpl. rewrite Hsig. destruct (sm !! id) as [s|] eqn:Es.
  2:{ simpl. rewrite delete_notin by done. auto. }
  destruct (for_each_mut_total (band_remove K bh id s) (bands m)) as (l' & Heq & HF).
  { intros b Hbin. apply elem_of_list_lookup in Hbin as [i Hi].
    destruct (Hband i b Hi) as [Hok _].
    destruct (band_remove_ok i b id s Hok) as (b' & -> & _); [|eauto].
    pose proof (band_le _ _ _ Hlen Hi). specialize (Hsz _ _ Es). lia. }
  rewrite Heq. simpl. split; [|done].
  split; simpl; try done.
  - rewrite <- (Forall2_length _ _ _ HF). done.
  - intros i b' Hi'. destruct (Forall2_lookup_r _ _ _ _ _ HF Hi') as (b & Hi & Hbi).
    destruct (Hband i b Hi) as [Hok Hcov].
    destruct (band_remove_ok i b id s Hok) as (b1 & Hb1 & Hok1 & _ & Hkeep & _).
    { pose proof (band_le _ _ _ Hlen Hi). specialize (Hsz _ _ Es). lia. }
    rewrite Hbi in Hb1. injection Hb1 as <-. split; [done|].
    intros x t. intros [Hne Ht]%lookup_delete_Some. apply Hkeep; [left; congruence|]. by apply Hcov.
  - intros x t [_ Ht]%lookup_delete_Some. by eapply Hsz.
Qed.

Lemma remove_exact th m sm id :
  Inv th m sm ->
  (forall i b, bands m !! i = Some b -> exact i sm b) ->
  forall i b, bands (remove K bh id m).1 !! i = Some b -> exact i (delete id sm) b.
Proof.
  intros HI Hex. pose proof HI as [Hlen Hband Hsig Hth Hn Hb Hr Hsz].
  unfold remove. rewrite Hsig. destruct (sm !! id) as [s|] eqn:Es.
  2:{ simpl. rewrite delete_notin by done. auto. }
  destruct (for_each_mut_total (band_remove K bh id s) (bands m)) as (l' & Heq & HF).
  { intros b Hbin. apply elem_of_list_lookup in Hbin as [i Hi].
    destruct (Hband i b Hi) as [Hok _].
    destruct (band_remove_ok i b id s Hok) as (b' & -> & _); [|eauto].
    pose proof (band_le _ _ _ Hlen Hi). specialize (Hsz _ _ Es). lia. }
  simpl. rewrite Heq. simpl. intros i b' Hi'.
  destruct (Forall2_lookup_r _ _ _ _ _ HF Hi') as (b & Hi & Hbi).
  destruct (Hband i b Hi) as [Hok Hcov]. destruct (Hex i b Hi) as [Hex1 Hex2].
  destruct (band_remove_ok i b id s Hok) as (b1 & Hb1 & Hok1 & Hsub & Hkeep & Hnd).
  { pose proof (band_le _ _ _ Hlen Hi). specialize (Hsz _ _ Es). lia. }
  rewrite Hbi in Hb1. injection Hb1 as <-. destruct (Hnd Hex2) as [Hnd1 Hgone].
  split; [|done]. intros k x. split.
  - intros Hx. pose proof (Hsub _ _ Hx) as Hx0. apply Hex1 in Hx0 as (t & Ht & ->).
    exists t. split; [|done]. apply lookup_delete_Some. split; [|done].
    intros <-. rewrite Es in Ht. injection Ht as <-. done.
  - intros (t & [Hne Ht]%lookup_delete_Some & ->). apply Hkeep; [left; congruence|].
    apply Hex1. eauto.
Qed.

Lemma remove_all_spec (ids seen : list Id) sm :
  remove_all ids (filter (fun kv => kv.1 ∉ seen) sm) =
  (filter (fun kv => kv.1 ∉ seen ++ ids) sm,
   omap id (imap (fun i x => if decide (x ∈ seen ++ take i ids) then None else sm !! x) ids)).
Proof.
  revert seen. induction ids as [|x ids IH]; intros seen.
  { simpl. by rewrite app_nil_r. }
  rewrite imap_cons. unfold compose. simpl. rewrite app_nil_r.
  assert (Hext : imap (fun i y => if decide (y ∈ seen ++ take (S i) (x :: ids)) then None
                                  else sm !! y) ids =
     imap (fun i y => if decide (y ∈ (seen ++ [x]) ++ take i ids) then None else sm !! y) ids).
  { apply imap_ext. intros i y _. simpl.
    by replace ((seen ++ [x]) ++ take i ids) with (seen ++ x :: take i ids)
      by (by rewrite <- app_assoc). }
  simpl in Hext. rewrite Hext.
  assert (Happ : seen ++ x :: ids = (seen ++ [x]) ++ ids) by (by rewrite <- app_assoc).
  rewrite Happ.
  assert (Hdel : filter (fun kv => kv.1 ∉ seen ++ [x]) sm
               = delete x (filter (fun kv => kv.1 ∉ seen) sm)).
  { apply map_eq. intros y. apply option_eq. intros t.
    rewrite lookup_delete_Some, !map_filter_lookup_Some. simpl.
    rewrite not_elem_of_app, elem_of_list_singleton. naive_solver. }
  destruct (filter (fun kv => kv.1 ∉ seen) sm !! x) as [s|] eqn:Es.
  - apply map_filter_lookup_Some in Es as [Es Hx]. simpl in Hx.
    rewrite decide_False by done. rewrite Es. simpl. rewrite <- Hdel, IH. done.
  - rewrite delete_notin in Hdel by done. rewrite <- Hdel, IH.
    apply map_filter_lookup_None in Es.
    assert ((if decide (x ∈ seen) then None else sm !! x) = None) as ->; [|done].
    destruct (decide (x ∈ seen)); [done|]. destruct Es as [?|Es]; [done|].
    destruct (sm !! x) eqn:E; [|done]. exfalso. by eapply Es.
Qed.

Lemma remove_all_nil (ids : list Id) sm :
  remove_all ids sm = (filter (fun kv => kv.1 ∉ ids) sm, removed_sigs ids sm).
Proof.
  pose proof (remove_all_spec ids [] sm) as Hr. simpl in Hr.
  rewrite map_filter_id in Hr; [exact Hr|]. intros i x _. simpl. apply not_elem_of_nil.
Qed.

Lemma remove_all_members (ids : list Id) sm s :
  s ∈ (remove_all ids sm).2 -> exists x, sm !! x = Some s.
Proof.
  revert sm. induction ids as [|y ids IH]; intros sm; simpl; [by intros ?%elem_of_nil|].
  destruct (sm !! y) as [t|] eqn:Ey; simpl; [|apply IH].
  intros [->|Hs]%elem_of_cons; [eauto|].
  destruct (IH _ Hs) as [x [_ Hx]%lookup_delete_Some]. eauto.
Qed.

Lemma bulk_remove_long th m sm ids :
  Inv th m sm -> Forall (fun p => nb * bw <= length p.1) (zip (remove_all ids sm).2 ids).
Proof.
  intros HI. apply Forall_forall. intros [s x] Hp. simpl.
  apply elem_of_zip_l in Hp. apply remove_all_members in Hp as [y Hy].
  by eapply (inv_size _ _ _ HI).
Qed.

Lemma bulk_remove_bands th m sm sched ids :
  Inv th m sm ->
  par_for_each (bulk_remove_body K bh) sched (zip (remove_all ids sm).2 ids) (bands m) =
  ((fun b => (seq_loop (bulk_remove_body K bh) (zip (remove_all ids sm).2 ids) b).1) <$> bands m,
   false).
Proof.
  intros HI. pose proof (bulk_remove_long th m sm ids HI) as Hlong.
  set (ps := zip _ _) in *. clearbody ps.
  assert (Hp : (par_for_each (bulk_remove_body K bh) sched ps (bands m)).2 = false).
  { rewrite par_for_each_panic. apply not_true_iff_false. intros (b & Hb & Hp)%existsb_exists.
    apply elem_of_list_In, elem_of_list_lookup in Hb as [i Hi].
    destruct (inv_band _ _ _ HI _ _ Hi) as [Hok _].
    destruct (remove_loop_ok i b ps Hok) as [Hf _]; [|congruence].
    eapply Forall_impl; [exact Hlong|]. simpl. intros p.
    pose proof (band_le _ _ _ (inv_len _ _ _ HI) Hi). lia. }
  rewrite (surjective_pairing (par_for_each _ _ _ _)), Hp. f_equal. by apply par_for_each_ok.
Qed.

Lemma bulk_remove_inv th m sm sched ids :
  Inv th m sm ->
  Inv th (bulk_remove K bh sched ids m).1 (spec_step (nb * bw) sm (BulkRemove sched ids)) /\
  spec_out (nb * bw) sm (BulkRemove sched ids) (bulk_remove K bh sched ids m).2.
Proof.
  intros HI. pose proof HI as [Hlen Hband Hsig Hth Hn Hb Hr Hsz].
  unfold bulk_remove. rewrite Hsig. unfold set_sigs at 2. simpl.
  rewrite (bulk_remove_bands th m sm) by done. simpl.
  split; [|by rewrite remove_all_nil].
  pose proof (bulk_remove_long th m sm ids HI) as Hlong.
  split; simpl; try done.
  - by rewrite fmap_length.
  - intros i b'. rewrite list_lookup_fmap. intros (b & Hi & ->)%fmap_Some.
    destruct (Hband i b Hi) as [Hok Hcov].
    destruct (remove_loop_ok i b (zip (remove_all ids sm).2 ids) Hok)
      as (_ & Hok' & _ & Hkeep & _).
    { eapply Forall_impl; [exact Hlong|]. simpl. intros p.
      pose proof (band_le _ _ _ Hlen Hi). lia. }
    split; [done|]. intros x s [Hs Hx]%map_filter_lookup_Some. simpl in Hx.
    apply Hkeep; [|by apply Hcov]. intros t Ht%elem_of_zip_r. done.
  - by rewrite remove_all_nil.
  - intros x s [Hs _]%map_filter_lookup_Some. by eapply Hsz.
Qed.

(** For distinct live ids every signature is paired with its own id. *)
Lemma remove_all_live (ids : list Id) sm :
  NoDup ids -> Forall (fun x => is_Some (sm !! x)) ids ->
  Forall2 (fun s x => sm !! x = Some s) (remove_all ids sm).2 ids.
Proof.
  revert sm. induction ids as [|x ids IH]; intros sm Hnd Hl; simpl; [constructor|].
  apply NoDup_cons in Hnd as [Hx Hnd]. apply Forall_cons in Hl as [[s Hs] Hl].
  rewrite Hs. simpl. constructor; [done|].
  eapply Forall2_impl; [apply IH; [done|]|].
  - rewrite Forall_forall in Hl |- *. intros y Hy. rewrite lookup_delete_ne by set_solver. auto.
  - intros t y Ht%lookup_delete_Some. tauto.
Qed.

Lemma bulk_remove_exact th m sm sched ids :
  Inv th m sm -> NoDup ids -> Forall (fun x => is_Some (sm !! x)) ids ->
  (forall i b, bands m !! i = Some b -> exact i sm b) ->
  forall i b, bands (bulk_remove K bh sched ids m).1 !! i = Some b ->
    exact i (filter (fun kv => kv.1 ∉ ids) sm) b.
Proof.
  intros HI Hndi Hlive Hex. pose proof HI as [Hlen Hband Hsig Hth Hn Hb Hr Hsz].
  unfold bulk_remove. rewrite Hsig. unfold set_sigs at 2. simpl.
  rewrite (bulk_remove_bands th m sm) by done. simpl.
  pose proof (bulk_remove_long th m sm ids HI) as Hlong.
  pose proof (remove_all_live ids sm Hndi Hlive) as HF.
  intros i b'. rewrite list_lookup_fmap. intros (b & Hi & ->)%fmap_Some.
  destruct (Hband i b Hi) as [Hok Hcov]. destruct (Hex i b Hi) as [Hex1 Hex2].
  destruct (remove_loop_ok i b (zip (remove_all ids sm).2 ids) Hok)
    as (_ & Hok' & Hsub & Hkeep & Hnd).
  { eapply Forall_impl; [exact Hlong|]. simpl. intros p.
    pose proof (band_le _ _ _ Hlen Hi). lia. }
  destruct (Hnd Hex2) as [Hnd1 Hgone]. split; [|done]. intros k x. split.
  - intros Hx. pose proof (Hsub _ _ Hx) as Hx0. apply Hex1 in Hx0 as (t & Ht & ->).
    exists t. split; [|done]. apply map_filter_lookup_Some. split; [done|]. simpl.
    intros Hxi. apply elem_of_list_lookup in Hxi as [j Hj].
    destruct (Forall2_lookup_r _ _ _ _ _ HF Hj) as (s & Hsj & Hs).
    rewrite Ht in Hs. injection Hs as ->. eapply Hgone; [|exact Hx].
    apply elem_of_list_lookup. exists j. apply lookup_zip_with_Some. eauto.
  - intros (t & [Ht Hni]%map_filter_lookup_Some & ->). simpl in Hni. apply Hkeep.
    + by intros s Hs%elem_of_zip_r.
    + apply Hex1. eauto.
Qed.

(** *** Clearing, shrinking, and whole histories *)
Lemma clear_inv th m sm : Inv th m sm -> Inv th (clear K m) ∅.
Proof.
  intros [Hlen Hband Hsig Hth Hn Hb Hr Hsz]. split; simpl; try done.
  - by rewrite fmap_length.
  - intros i b'. rewrite list_lookup_fmap. intros (b & Hi & ->)%fmap_Some.
    destruct (Hband i b Hi) as [[? ? ?] _]. split; [|by intros x s].
    split; simpl; [done|done|]. by intros k c.
Qed.

Lemma clear_exact m i b : bands (clear K m) !! i = Some b -> exact i ∅ b.
Proof.
  simpl. rewrite list_lookup_fmap. intros (j & Hj & ->)%fmap_Some. split.
  - intros k x. split.
    + intros (c & Hc & _). done.
    + by intros (s & Hs & _).
  - by intros k c Hc.
Qed.

Lemma shrink_to_state cap mc m : (shrink_to K cap mc m).1 = m.
Proof. unfold shrink_to. destruct (Nat.ltb _ _); [done|]. by destruct (forallb _ _). Qed.

Lemma shrink_to_out cap mc m : (shrink_to K cap mc m).2 = OUnit \/ (shrink_to K cap mc m).2 = OPanic.
Proof. unfold shrink_to. destruct (Nat.ltb _ _); [by left|]. destruct (forallb _ _); auto. Qed.

Lemma step_inv th m sm o :
  Inv th m sm ->
  Inv th (step K bh m o).1 (spec_step (nb * bw) sm o) /\
  spec_out (nb * bw) sm o (step K bh m o).2.
Proof.
  intros HI. destruct o; unfold step.
  - by apply insert_inv.
  - by apply bulk_inv.
  - destruct (bulk_pairs_inv th m sm sched pairs HI). done.
  - by apply remove_inv.
  - by apply bulk_remove_inv.
  - split; [|done]. by eapply clear_inv.
  - done.
  - rewrite shrink_to_state. split; [done|]. apply shrink_to_out.
Qed.

Lemma step_exact th m sm o :
  Inv th m sm -> clean_op (nb * bw) sm o ->
  (forall i b, bands m !! i = Some b -> exact i sm b) ->
  forall i b, bands (step K bh m o).1 !! i = Some b -> exact i (spec_step (nb * bw) sm o) b.
Proof.
  intros HI Hc Hex. destruct o; unfold step; simpl in Hc.
  - by eapply insert_exact.
  - destruct Hc as (Hnd & Hfresh & Hlong). simpl. unfold par_bulk_insert.
    destruct sigs as [|s0 sigs].
    + simpl. intros i b Hi. rewrite zip_with_nil_r in *.
      eapply (bulk_pairs_exact th m sm sched []) in Hi; try done; try constructor.
    + rewrite (inv_n _ _ _ HI). rewrite decide_True.
      2:{ apply Forall_cons in Hlong as [? _]. done. }
      assert (Hz : Forall (fun p => length p.2 = nb * bw) (zip ids (s0 :: sigs))).
      { apply Forall_forall. intros [x s] Hp%elem_of_zip_r. rewrite Forall_forall in Hlong. auto. }
      assert (Hr : bulk_rejected (nb * bw) ids (s0 :: sigs) = false).
      { unfold bulk_rejected. apply Forall_cons in Hlong as [Hs0 _].
        rewrite bool_decide_false by (intros ?; done). simpl.
        apply bool_decide_eq_false. intros (p & Hp & Hlt)%Exists_exists.
        rewrite Forall_forall in Hz. apply Hz in Hp. lia. }
      rewrite Hr. by eapply bulk_pairs_exact.
  - destruct Hc as (Hnd & Hfresh & Hlong). simpl.
    assert (Hr : pairs_too_short (nb * bw) pairs = false).
    { apply bool_decide_eq_false. intros (p & Hp & Hlt)%Exists_exists.
      rewrite Forall_forall in Hlong. apply Hlong in Hp. lia. }
    rewrite Hr. by eapply bulk_pairs_exact.
  - by eapply remove_exact.
  - destruct Hc. by eapply bulk_remove_exact.
  - simpl. apply clear_exact.
  - done.
  - by rewrite shrink_to_state.
Qed.

Lemma run_inv_from th m sm ops :
  Inv th m sm -> Inv th (run K bh m ops) (fold_left (spec_step (nb * bw)) ops sm).
Proof.
  revert m sm. induction ops as [|o ops IH]; intros m sm HI; simpl; [done|].
  apply IH. by apply step_inv.
Qed.

Lemma run_inv th ops : Inv th (run K bh (new_index K nb bw th) ops) (spec_map (nb * bw) ops).
Proof. apply run_inv_from, new_inv. Qed.

Lemma run_exact_from th m sm ops :
  Inv th m sm -> clean_from (nb * bw) sm ops ->
  (forall i b, bands m !! i = Some b -> exact i sm b) ->
  forall i b, bands (run K bh m ops) !! i = Some b ->
    exact i (fold_left (spec_step (nb * bw)) ops sm) b.
Proof.
  revert m sm. induction ops as [|o ops IH]; intros m sm HI Hc Hex; simpl; [done|].
  destruct Hc as [Hc1 Hc2]. apply IH; [by apply step_inv|done|]. by eapply step_exact.
Qed.

Lemma run_exact th ops :
  clean (nb * bw) ops ->
  forall i b, bands (run K bh (new_index K nb bw th) ops) !! i = Some b ->
    exact i (spec_map (nb * bw) ops) b.
Proof. intros Hc. apply (run_exact_from th); [apply new_inv|done|apply new_exact]. Qed.

(** ** Queries *)
Lemma candidates_spec th m sm q :
  Inv th m sm -> nb * bw <= length q ->
  exists cs, candidates K bh m q = Some cs /\
    forall x, x ∈ cs <-> exists i b, bands m !! i = Some b /\ in_band b (bkey i q) x.
Proof.
  intros HI Hq. unfold candidates.
  assert (HS : is_Some (mapM (band_query K bh q) (bands m))).
  { apply mapM_is_Some, Forall_forall. intros b Hb.
    apply elem_of_list_lookup in Hb as [i Hi]. destruct (inv_band _ _ _ HI _ _ Hi) as [Hok _].
    change (is_Some (band_query K bh q b)). unfold band_query. rewrite (band_key_ok i).
    - simpl. eauto.
    - done.
    - pose proof (band_le _ _ _ (inv_len _ _ _ HI) Hi). lia. }
  destruct HS as [ls Hls]. rewrite Hls. simpl. eexists. split; [done|].
  apply mapM_Some in Hls. intros x.
  assert (Hbq : forall i b l, bands m !! i = Some b -> band_query K bh q b = Some l ->
     (x ∈ l <-> in_band b (bkey i q) x)).
  { intros i b l Hi Hl. destruct (inv_band _ _ _ HI _ _ Hi) as [Hok _].
    unfold band_query in Hl. rewrite (band_key_ok i) in Hl; [|done|].
    2:{ pose proof (band_le _ _ _ (inv_len _ _ _ HI) Hi). lia. }
    simpl in Hl. injection Hl as <-. unfold in_band.
    destruct (hash_table b !! bkey i q) as [c|].
    - split; [eauto|]. by intros (? & [= <-] & ?).
    - split; [by intros ?%elem_of_nil|]. by intros (? & ? & _). }
  rewrite elem_of_list_to_set. 
  rewrite elem_of_list_In, in_concat. split.
  - intros (l & Hl & Hx). apply elem_of_list_In, elem_of_list_lookup in Hl as [i Hi].
    apply elem_of_list_In in Hx.
    destruct (Forall2_lookup_r _ _ _ _ _ Hls Hi) as (b & Hib & Hlb).
    exists i, b. split; [done|]. by eapply Hbq.
  - intros (i & b & Hi & Hx). destruct (Forall2_lookup_l _ _ _ _ _ Hls Hi) as (l & Hil & Hlb).
    exists l. split; [eapply elem_of_list_In, elem_of_list_lookup_2; eauto|].
    apply elem_of_list_In. by eapply Hbq.
Qed.

Lemma query_owned_query m q : query_owned K bh m q = query K bh m q.
Proof. done. Qed.

(** Soundness needs nothing but the final filter. *)
Lemma query_sound th m sm q S x :
  Inv th m sm -> query K bh m q = Some S -> x ∈ S ->
  exists s, sm !! x = Some s /\ length s = length q /\ f64_ge (sim s q) th = true.
Proof.
  intros HI Hq Hx. unfold query in Hq. destruct (decide _) as [Hl|]; [|done].
  destruct (candidates K bh m q) as [cs|]; [|done]. simpl in Hq.
  destruct (filter_res _ _) as [l|] eqn:Ef; [|done]. simpl in Hq. injection Hq as <-.
  rewrite elem_of_list_to_set, (filter_res_Some _ _ _ Ef) in Hx. destruct Hx as [_ Hk].
  unfold query_keep in Hk. rewrite (inv_sigs _ _ _ HI), (inv_th _ _ _ HI) in Hk.
  destruct (sm !! x) as [s|]; [|done]. exists s. split; [done|].
  destruct (decide (length s = length q)) as [Hlen|Hlen].
  - rewrite similarity_sim in Hk by done. simpl in Hk. injection Hk as Hk. done.
  - rewrite similarity_panic in Hk by done. done.
Qed.

Lemma query_keep_sim th m sm q x :
  Inv th m sm -> well_sized (nb * bw) sm -> length q = nb * bw ->
  query_keep K m q x = Some (match sm !! x with Some s => f64_ge (sim s q) th | None => false end).
Proof.
  intros HI Hw Hq. unfold query_keep. rewrite (inv_sigs _ _ _ HI), (inv_th _ _ _ HI).
  destruct (sm !! x) as [s|] eqn:Es; [|done].
  rewrite similarity_sim by (rewrite (Hw _ _ Es); done). done.
Qed.

Lemma query_exact_general th m sm q :
  Inv th m sm -> well_sized (nb * bw) sm -> length q = nb * bw ->
  exists S, query K bh m q = Some S /\
    forall x, x ∈ S <->
      (exists i b, bands m !! i = Some b /\ in_band b (bkey i q) x) /\
      exists s, sm !! x = Some s /\ f64_ge (sim s q) th = true.
Proof.
  intros HI Hw Hq. unfold query. rewrite (inv_n _ _ _ HI), decide_True by done.
  destruct (candidates_spec th m sm q HI) as (cs & -> & Hcs); [lia|]. simpl.
  destruct (filter_res_total (query_keep K m q) (elements cs)) as [l Hl].
  { intros x _. rewrite (query_keep_sim th m sm) by done. eauto. }
  rewrite Hl. simpl. eexists. split; [done|]. intros x.
  rewrite elem_of_list_to_set, (filter_res_Some _ _ _ Hl), elem_of_elements, Hcs.
  apply and_iff_compat_l. rewrite (query_keep_sim th m sm) by done.
  destruct (sm !! x) as [s|]; split.
  - intros [= Hs]. eauto.
  - by intros (? & [= <-] & ->).
  - done.
  - by intros (? & ? & _).
Qed.
End Facts.
