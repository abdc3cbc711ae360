(** Facts about tokenizing and shingling. *)
From stdpp Require Import base list.
From Coq Require Import NArith Lia.
From Verif Require Import Base Text SpecText.
Local Open Scope nat_scope.

(** ** whitespace_split *)
Notation sepb := (fun c => is_ascii_punctuation c || is_ascii_whitespace c).

Lemma sepb_small : forallb (fun c => Bool.eqb (sepb c) (bool_decide (c ∈ separators)))
  (N.of_nat <$> seq 0 127) = true.
Proof. vm_compute. reflexivity. Qed.

Lemma sepb_spec c : sepb c = true <-> c ∈ separators.
Proof.
  destruct (decide (c < 127)%N) as [Hc|Hc].
  - pose proof sepb_small as Hs. rewrite forallb_forall in Hs.
    specialize (Hs c). rewrite eqb_true_iff in Hs. rewrite Hs; [apply bool_decide_eq_true|].
    apply elem_of_list_In, elem_of_list_fmap. exists (N.to_nat c). split; [lia|].
    apply elem_of_seq. lia.
  - split.
    + unfold is_ascii_punctuation, is_ascii_whitespace.
      rewrite !orb_true_iff, !andb_true_iff, !N.leb_le, !N.eqb_eq. lia.
    + intros Hin. exfalso. apply Hc.
      assert (HF : Forall (fun c => c < 127)%N separators) by (repeat constructor).
      rewrite Forall_forall in HF. by apply HF.
Qed.

Lemma sepb_false c : sepb c = false <-> c ∉ separators.
Proof. rewrite <- sepb_spec. destruct (sepb c); naive_solver. Qed.

Lemma split_run (t : list N) : Forall (fun c => c ∉ separators) t -> split_on sepb t = [t].
Proof.
  induction 1 as [|c t Hc Ht IH]; [done|]. cbn [split_on].
  rewrite (proj2 (sepb_false c) Hc). by rewrite IH.
Qed.

Lemma split_run_sep (t : list N) c r : Forall (fun c => c ∉ separators) t -> c ∈ separators ->
  split_on sepb (t ++ c :: r) = t :: split_on sepb r.
Proof.
  intros Ht Hc. induction Ht as [|c' t Hc' Ht IH].
  - cbn [app split_on]. by rewrite (proj2 (sepb_spec c) Hc).
  - cbn [app split_on]. rewrite (proj2 (sepb_false c') Hc'). by rewrite IH.
Qed.

Lemma split_head (text : list N) :
  Forall (fun c => c ∉ separators) text \/
  exists t c r, text = t ++ c :: r /\ Forall (fun c => c ∉ separators) t /\ c ∈ separators.
Proof.
  induction text as [|c text IH]; [by left|].
  destruct (decide (c ∈ separators)) as [Hc|Hc].
  - right. by exists [], c, text.
  - destruct IH as [IH|(t & c' & r & -> & Ht & Hc')]; [left; by constructor|].
    right. exists (c :: t), c', r. split; [done|]. split; [by constructor|done].
Qed.

Lemma ws_sep c r : c ∈ separators -> whitespace_split (c :: r) = whitespace_split r.
Proof.
  intros Hc. unfold whitespace_split. cbn [split_on].
  rewrite (proj2 (sepb_spec c) Hc). done.
Qed.

Lemma ws_seps s r : Forall (fun c => c ∈ separators) s -> whitespace_split (s ++ r) = whitespace_split r.
Proof. induction 1 as [|c s Hc Hs IH]; [done|]. cbn [app]. by rewrite ws_sep. Qed.

Lemma ws_token t rest : t ≠ [] -> Forall (fun c => c ∉ separators) t ->
  (rest = [] \/ exists c r, rest = c :: r /\ c ∈ separators) ->
  whitespace_split (t ++ rest) = t :: whitespace_split rest.
Proof.
  intros Hne Ht [->|(c & r & -> & Hc)].
  - rewrite app_nil_r. unfold whitespace_split. rewrite split_run by done. by destruct t.
  - rewrite ws_sep by done. unfold whitespace_split. rewrite split_run_sep by done. by destruct t.
Qed.

Lemma runs_split text ts : runs text ts -> ts = whitespace_split text.
Proof.
  induction 1 as [s Hs|s t rest ts Hs Hne Ht Hrest Hr IH].
  - rewrite <- (app_nil_r s), ws_seps by done. done.
  - rewrite ws_seps, ws_token by done. by rewrite IH.
Qed.

Lemma runs_sep c text ts : c ∈ separators -> runs text ts -> runs (c :: text) ts.
Proof.
  intros Hc Hr. destruct Hr as [s Hs|s t rest ts Hs Hne Ht Hrest Hr].
  - apply runs_end. by constructor.
  - apply (runs_token (c :: s)); auto.
Qed.

Lemma split_runs text : runs text (whitespace_split text).
Proof.
  remember (length text) as n eqn:En. revert text En.
  induction (lt_wf n) as [n _ IH]. intros text ->.
  destruct (split_head text) as [Hall|(t & c & r & -> & Ht & Hc)].
  - destruct text as [|c text]; [apply runs_end; constructor|].
    rewrite <- (app_nil_r (c :: text)), ws_token; [|done|done|by left].
    apply (runs_token [] (c :: text) [] (whitespace_split []));
      [constructor|done|done|by left|]. apply runs_end. constructor.
  - assert (Hr : runs (c :: r) (whitespace_split (c :: r))).
    { rewrite ws_sep by done. apply runs_sep; [done|].
      apply (IH (length r)); [|done]. rewrite app_length. cbn. lia. }
    destruct t as [|c' t]; [exact Hr|].
    rewrite ws_token; [|done|done|right; eauto].
    apply (runs_token [] (c' :: t) (c :: r)); [constructor|done|done|right; eauto|done].
Qed.

Lemma runs_content text ts : runs text ts ->
  mjoin ts = filter (fun c => c ∉ separators) text /\
  forall t, t ∈ ts -> t ≠ [] /\ Forall (fun c => c ∉ separators) t.
Proof.
  assert (Hs0 : forall s, Forall (fun c => c ∈ separators) s -> filter (fun c => c ∉ separators) s = []).
  { induction 1 as [|c s Hc Hs IH]; [done|]. rewrite filter_cons, decide_False; tauto. }
  assert (Ht0 : forall t, Forall (fun c => c ∉ separators) t -> filter (fun c => c ∉ separators) t = t).
  { induction 1 as [|c t Hc Ht IH]; [done|]. rewrite filter_cons, decide_True by done. by rewrite IH. }
  induction 1 as [s Hs|s t rest ts Hs Hne Ht Hrest Hr [IH1 IH2]].
  - split; [by rewrite Hs0|]. by intros t ?%elem_of_nil.
  - split.
    + rewrite !filter_app, Hs0, Ht0, <- IH1 by done. done.
    + intros t' [->|Hin]%elem_of_cons; [done|]. by apply IH2.
Qed.

(** ** Iterators *)
Section Drive.
Context {St Item : Type} (next : St -> res (option Item * St)).

(** The loop ends after exactly these items. *)
Definition ends (s : St) (items : list Item) : Prop :=
  forall n, length items < n -> drive next n s = (items, Ended).

Lemma ends_nil s s' : next s = Some (None, s') -> ends s [].
Proof. intros E n Hn. destruct n; [cbn in Hn; lia|]. cbn. by rewrite E. Qed.

Lemma ends_cons s x s' items : next s = Some (Some x, s') -> ends s' items -> ends s (x :: items).
Proof.
  intros E Hr n Hn. destruct n; [cbn in Hn; lia|]. cbn in Hn. cbn. rewrite E.
  rewrite (Hr n) by lia. done.
Qed.

Lemma ends_nil_inv s : ends s [] -> exists s', next s = Some (None, s').
Proof.
  intros He. specialize (He 1 ltac:(cbn; lia)). cbn in He.
  destruct (next s) as [[[x|] s']|]; [done|eauto|done].
Qed.

Lemma ends_cons_inv s x items : ends s (x :: items) ->
  exists s', next s = Some (Some x, s') /\ ends s' items.
Proof.
  intros He. assert (exists k, k = S (length items)) as [k Ek] by eauto.
  pose proof (He (S k) ltac:(cbn; lia)) as E. cbn [drive] in E.
  destruct (next s) as [[[y|] s']|] eqn:En; [|done|done].
  destruct (drive next k s') as [l st] eqn:Ed. cbn in E.
  injection E as -> -> ->. exists s'. split; [done|].
  intros n Hn. specialize (He (S n) ltac:(cbn; lia)). cbn in He. rewrite En in He.
  destruct (drive next n s') as [l' st']. cbn in He. by injection He as -> ->.
Qed.
End Drive.

(** ** MultiShingles over slices *)
Section Slices.
Context {A : Type} (l : list A).

Lemma slice_from (d : list A) : 1 <= length d -> slice d 1 (length d) = Some (drop 1 d).
Proof.
  intros Hd. unfold slice. rewrite decide_True by lia. f_equal. apply take_ge.
  rewrite drop_length. lia.
Qed.

Lemma slice_to (d : list A) s : s <= length d -> slice d 0 s = Some (take s d).
Proof. intros Hs. unfold slice. rewrite decide_True by lia. rewrite drop_0. do 2 f_equal. lia. Qed.

Lemma next_window p from to s : s <= length l - p -> (to < s + 1 -> 1 <= length l - p) ->
  slice_next (Shingler (drop p l) from to s 1) =
  Some (Some (window l p s),
        if to <? s + 1 then Shingler (drop (p + 1) l) from to from 1
        else Shingler (drop p l) from to (s + 1) 1).
Proof.
  intros Hs H1. unfold slice_next. cbn [sh_data sh_size to_size from_size sh_step].
  rewrite (proj2 (Nat.leb_le _ _)) by (rewrite drop_length; lia).
  rewrite slice_to by (rewrite drop_length; lia). cbn [mbind option_bind].
  destruct (to <? s + 1) eqn:E; [|done]. apply Nat.ltb_lt in E.
  rewrite slice_from by (rewrite drop_length; lia). cbn [mbind option_bind].
  rewrite drop_drop. done.
Qed.

Lemma next_none p from to s : length l - p < s ->
  slice_next (Shingler (drop p l) from to s 1) = Some (None, Shingler (drop p l) from to s 1).
Proof.
  intros Hs. unfold slice_next. cbn [sh_data sh_size].
  by rewrite (proj2 (Nat.leb_gt _ _)) by (rewrite drop_length; lia).
Qed.

Lemma full_position p from to s rest : 1 <= to -> p + to <= length l -> s <= to ->
  ends slice_next (Shingler (drop (p + 1) l) from to from 1) rest ->
  ends slice_next (Shingler (drop p l) from to s 1) ((window l p <$> seq s (to + 1 - s)) ++ rest).
Proof.
  intros Hto Hp Hs Hrest. remember (to - s) as j eqn:Ej. revert s Hs Ej.
  induction j as [|j IH]; intros s Hs Ej.
  - replace (to + 1 - s) with 1 by lia. cbn. eapply ends_cons; [|exact Hrest].
    rewrite next_window by lia. by rewrite (proj2 (Nat.ltb_lt _ _)) by lia.
  - replace (to + 1 - s) with (S (to + 1 - S s)) by lia. cbn. eapply ends_cons.
    + rewrite next_window by lia. rewrite (proj2 (Nat.ltb_ge _ _)) by lia. reflexivity.
    + replace (s + 1) with (S s) by lia. apply IH; lia.
Qed.

Lemma last_position p from to s : length l - p < to ->
  ends slice_next (Shingler (drop p l) from to s 1) (window l p <$> seq s (length l - p + 1 - s)).
Proof.
  intros Hp. remember (length l - p + 1 - s) as j eqn:Ej. revert s Ej.
  induction j as [|j IH]; intros s Ej.
  - cbn. eapply ends_nil. apply next_none. lia.
  - cbn. eapply ends_cons.
    + rewrite next_window by lia. rewrite (proj2 (Nat.ltb_ge _ _)) by lia. reflexivity.
    + replace (s + 1) with (S s) by lia. apply IH. lia.
Qed.

Lemma slice_shingles from to : 1 <= to -> from <= to ->
  ends slice_next (multi_shingles l from to) (shingle_windows l from to).
Proof.
  intros Hto Hft. unfold shingle_windows, multi_shingles. set (k := length l + 1 - to).
  assert (G : forall j p, j = k - p -> p <= k ->
    ends slice_next (Shingler (drop p l) from to from 1)
      (mjoin ((fun p => window l p <$> seq from (to + 1 - from)) <$> seq p j)
       ++ (window l k <$> seq from (length l - k + 1 - from)))).
  { induction j as [|j IH]; intros p Ej Hp.
    - replace p with k by lia. cbn. apply last_position. unfold k. lia.
    - cbn [seq fmap list_fmap].
      change (mjoin (?x :: ?y)) with (x ++ mjoin y). rewrite <- app_assoc.
      apply full_position; [done|unfold k in *; lia|done|].
      replace (p + 1) with (S p) by lia. apply IH; lia. }
  specialize (G k 0 ltac:(lia) ltac:(lia)). rewrite drop_0 in G. exact G.
Qed.

(** [to < from]: only the size [from]. *)
Lemma slice_inverted from to : 1 <= from -> to < from ->
  ends slice_next (multi_shingles l from to)
    ((fun p => window l p from) <$> seq 0 (length l + 1 - from)).
Proof.
  intros H1 Hft. unfold multi_shingles.
  assert (G : forall j p, j = length l + 1 - from - p ->
    ends slice_next (Shingler (drop p l) from to from 1) ((fun p => window l p from) <$> seq p j)).
  { induction j as [|j IH]; intros p Ej.
    - cbn. eapply ends_nil. apply next_none. lia.
    - cbn. eapply ends_cons.
      + rewrite next_window by lia. rewrite (proj2 (Nat.ltb_lt _ _)) by lia. reflexivity.
      + replace (p + 1) with (S p) by lia. apply IH. lia. }
  specialize (G (length l + 1 - from) 0 ltac:(lia)). rewrite drop_0 in G. exact G.
Qed.

Lemma slice_zero n : length l < n ->
  drive slice_next n (multi_shingles l 0 0) = (replicate (length l) [], Panicked).
Proof.
  unfold multi_shingles.
  assert (G : forall j p n, j = length l - p -> j < n ->
    drive slice_next n (Shingler (drop p l) 0 0 0 1) = (replicate j [], Panicked)).
  { clear n. induction j as [|j IH]; intros p n Ej Hn; (destruct n as [|n]; [lia|]); cbn [drive].
    - unfold slice_next. cbn [sh_data sh_size to_size from_size sh_step].
      rewrite drop_ge by lia. cbn. done.
    - rewrite next_window by lia. cbn [Nat.ltb Nat.leb Nat.add].
      change (0 <? 1) with true. cbn iota.
      rewrite IH by lia. done. }
  intros Hn. specialize (G (length l) 0 n ltac:(lia) Hn). rewrite drop_0 in G. exact G.
Qed.
End Slices.

(** ** UTF-8 *)
Lemma utf8_shape c : exists lead conts, utf8 c = lead :: conts /\
  is_continuation lead = false /\ Forall (fun b => is_continuation b = true) conts.
Proof.
  assert (Hc : forall v, is_continuation (128 + v mod 64)%N = true).
  { intros v. unfold is_continuation. pose proof (N.mod_lt v 64 ltac:(lia)) as Hv.
    revert Hv. generalize (v mod 64)%N. intros m Hm.
    rewrite (proj2 (N.leb_le _ _)), (proj2 (N.ltb_lt _ _)); [done|lia|lia]. }
  assert (Hl : forall k v, (192 <= k)%N -> is_continuation (k + v)%N = false).
  { intros k v Hk. unfold is_continuation. rewrite (proj2 (N.ltb_ge (k + v) 192)) by lia.
    apply andb_false_r. }
  unfold utf8. destruct (c <? 128)%N eqn:E1; [|destruct (c <? 2048)%N; [|destruct (c <? 65536)%N]].
  - exists c, []. split; [done|]. split; [|constructor]. unfold is_continuation.
    apply N.ltb_lt in E1. by rewrite (proj2 (N.leb_gt 128 c)) by lia.
  - eexists _, _. split; [reflexivity|]. split; [apply Hl; lia|]. repeat constructor; apply Hc.
  - eexists _, _. split; [reflexivity|]. split; [apply Hl; lia|]. repeat constructor; apply Hc.
  - eexists _, _. split; [reflexivity|]. split; [apply Hl; lia|]. repeat constructor; apply Hc.
Qed.

Lemma utf8_pos c : 0 < length (utf8 c).
Proof. destruct (utf8_shape c) as (b & cs & -> & _). cbn. lia. Qed.

Lemma utf8_cons c t : utf8_text (c :: t) = utf8 c ++ utf8_text t.
Proof. done. Qed.

Lemma utf8_app t1 t2 : utf8_text (t1 ++ t2) = utf8_text t1 ++ utf8_text t2.
Proof.
  induction t1 as [|c t1 IH]; [done|]. cbn [app]. rewrite !utf8_cons, IH. by rewrite app_assoc.
Qed.

Lemma boundaries_conts i conts rest : Forall (fun b => is_continuation b = true) conts ->
  boundaries i (conts ++ rest) = boundaries (i + length conts) rest.
Proof.
  intros Hc. revert i. induction Hc as [|b conts Hb Hc IH]; intros i.
  - cbn. f_equal. lia.
  - cbn [app boundaries]. rewrite Hb, IH. f_equal. cbn. lia.
Qed.

Lemma boundaries_char i c rest :
  boundaries i (utf8 c ++ rest) = i :: boundaries (i + length (utf8 c)) rest.
Proof.
  destruct (utf8_shape c) as (b & cs & -> & Hb & Hcs).
  cbn [app boundaries]. rewrite Hb, boundaries_conts by done. do 2 f_equal. cbn. lia.
Qed.

Lemma boundaries_text i text j :
  boundaries i (utf8_text text) !! j =
  if decide (j < length text) then Some (i + length (utf8_text (take j text))) else None.
Proof.
  revert i j. induction text as [|c text IH]; intros i j.
  - cbn. destruct j; done.
  - rewrite utf8_cons, boundaries_char. destruct j as [|j].
    + cbn. f_equal. lia.
    + cbn [lookup list_lookup]. change (list_lookup j ?x) with (x !! j). rewrite IH.
      cbn [length take]. repeat case_decide; try lia; [|done].
      rewrite utf8_cons, app_length. f_equal. lia.
Qed.

Lemma boundaries_length i text : length (boundaries i (utf8_text text)) = length text.
Proof.
  revert i. induction text as [|c text IH]; intros i; [done|].
  rewrite utf8_cons, boundaries_char. cbn. by rewrite IH.
Qed.

Lemma offset_pos text j : 0 < j -> j <= length text -> 0 < length (utf8_text (take j text)).
Proof.
  intros Hj Hl. destruct text as [|c text]; [cbn in Hl; lia|]. destruct j as [|j]; [lia|].
  cbn [take]. rewrite utf8_cons, app_length. pose proof (utf8_pos c). lia.
Qed.

(** The scan finds both offsets. *)
Lemma scan_spec size (ps : list nat) :
  (forall i x, ps !! i = Some x -> x = 0 <-> i = 0) ->
  exists chars, scan 1 size ps 0 0 0 = (chars, default 0 (ps !! 1), default 0 (ps !! size)) /\
    (default 0 (ps !! size) = 0 -> chars = length ps).
Proof.
  intros Hps.
  assert (G : forall j c, j = length ps - c -> c <= length ps ->
    exists chars, scan 1 size (drop c ps) c (if 1 <? c then default 0 (ps !! 1) else 0)
        (if size <? c then default 0 (ps !! size) else 0)
      = (chars, default 0 (ps !! 1), default 0 (ps !! size)) /\
      (default 0 (ps !! size) = 0 -> chars = length ps)).
  { induction j as [|j IH]; intros c Ej Hc.
    - assert (c = length ps) as -> by lia. rewrite drop_all. cbn [scan].
      exists (length ps). split; [|done].
      assert (Hd : forall k, (if k <? length ps then default 0 (ps !! k) else 0) = default 0 (ps !! k)).
      { intros k. destruct (Nat.ltb_spec k (length ps)); [done|].
        by rewrite lookup_ge_None_2 by done. }
      by rewrite !Hd.
    - destruct (lookup_lt_is_Some_2 ps c ltac:(lia)) as [x Hx].
      rewrite (drop_S ps x c Hx). cbn [scan].
      set (pn := if c =? 1 then x else _). set (pe := if c =? size then x else _).
      assert (Epn : pn = if 1 <? S c then default 0 (ps !! 1) else 0).
      { unfold pn. destruct (Nat.eqb_spec c 1) as [->|Hne].
        - cbn. by rewrite Hx.
        - destruct (Nat.ltb_spec 1 c), (Nat.ltb_spec 1 (S c)); try lia; done. }
      assert (Epe : pe = if size <? S c then default 0 (ps !! size) else 0).
      { unfold pe. destruct (Nat.eqb_spec c size) as [->|Hne].
        - rewrite (proj2 (Nat.ltb_lt _ _)) by lia. by rewrite Hx.
        - destruct (Nat.ltb_spec size c), (Nat.ltb_spec size (S c)); try lia; done. }
      destruct (negb (pn =? 0) && negb (pe =? 0)) eqn:Eb.
      + apply andb_true_iff in Eb as [En Ee]. rewrite negb_true_iff, Nat.eqb_neq in En, Ee.
        exists c. rewrite Epn in *. rewrite Epe in *.
        destruct (1 <? S c); [|lia]. destruct (size <? S c); [|lia].
        split; [done|]. lia.
      + rewrite Epn, Epe. replace (c + 1) with (S c) by lia. apply IH; lia. }
  specialize (G (length ps) 0 ltac:(lia) ltac:(lia)). rewrite drop_0 in G. exact G.
Qed.

Lemma boundary_at text j : j <= length text ->
  is_char_boundary (utf8_text text) (length (utf8_text (take j text))) = true.
Proof.
  intros Hj. unfold is_char_boundary.
  destruct (decide (j = length text)) as [->|Hne].
  { rewrite firstn_all, Nat.eqb_refl. by rewrite orb_true_r. }
  destruct (lookup_lt_is_Some_2 text j ltac:(lia)) as [c Hc].
  destruct (utf8_shape c) as (b & cs & Ec & Hb & _).
  assert (E : utf8_text text !! length (utf8_text (take j text)) = Some b).
  { transitivity ((utf8_text (take j text) ++ utf8_text (drop j text)) !! length (utf8_text (take j text))).
    { by rewrite <- utf8_app, take_drop. }
    rewrite lookup_app_r, Nat.sub_diag by lia. rewrite (drop_S text c j Hc), utf8_cons, Ec. done. }
  rewrite E, Hb. by rewrite orb_true_r.
Qed.

Lemma str_slice_to text j : j <= length text ->
  str_slice (utf8_text text) 0 (length (utf8_text (take j text))) = Some (utf8_text (take j text)).
Proof.
  intros Hj. unfold str_slice. rewrite boundary_at by done. cbn [andb is_char_boundary].
  change (is_char_boundary (utf8_text text) 0) with true. cbn [andb].
  assert (E : utf8_text text = utf8_text (take j text) ++ utf8_text (drop j text))
    by (by rewrite <- utf8_app, take_drop).
  unfold slice. rewrite decide_True by (rewrite E, app_length; lia).
  rewrite drop_0, Nat.sub_0_r, E. f_equal. apply take_app.
Qed.

Lemma str_slice_from text j : j <= length text ->
  str_slice (utf8_text text) (length (utf8_text (take j text))) (length (utf8_text text))
  = Some (utf8_text (drop j text)).
Proof.
  intros Hj. unfold str_slice. rewrite boundary_at by done.
  assert (Eb : is_char_boundary (utf8_text text) (length (utf8_text text)) = true).
  { unfold is_char_boundary. rewrite Nat.eqb_refl. by rewrite orb_true_r. }
  rewrite Eb. cbn [andb].
  assert (E : utf8_text text = utf8_text (take j text) ++ utf8_text (drop j text))
    by (by rewrite <- utf8_app, take_drop).
  unfold slice. rewrite decide_True by (rewrite E, app_length; lia).
  f_equal.
  replace (drop (length (utf8_text (take j text))) (utf8_text text)) with (utf8_text (drop j text))
    by (rewrite E; by rewrite drop_app).
  apply take_ge. rewrite E, app_length. lia.
Qed.

(** ** MultiShingles over strings *)
Definition encoded (s : shingler N) : shingler N :=
  Shingler (utf8_text (sh_data s)) (from_size s) (to_size s) (sh_size s) (sh_step s).

Lemma str_next_spec text from to size :
  str_next (Shingler (utf8_text text) from to size 1) =
  Some (if decide (0 < size <= length text \/ size = 0 /\ text = []) then Some (utf8_text (take size text)) else None,
        encoded (if to <? size + 1 then Shingler (drop 1 text) from to from 1
                 else Shingler text from to (size + 1) 1)).
Proof.
  unfold str_next. cbn [sh_data sh_size to_size from_size sh_step].
  set (ps := boundaries 0 (utf8_text text)).
  assert (Hps : forall j, ps !! j =
    if decide (j < length text) then Some (length (utf8_text (take j text))) else None).
  { intros j. unfold ps. rewrite boundaries_text. done. }
  assert (Hlen : length ps = length text) by apply boundaries_length.
  destruct (scan_spec size ps) as (chars & -> & Hch).
  { intros i x Hx. rewrite Hps in Hx. case_decide; [|done]. injection Hx as <-. split.
    - intros E0. destruct i as [|i]; [done|]. pose proof (offset_pos text (S i)). lia.
    - intros ->. done. }
  rewrite Hlen in Hch.
  assert (Hpe : default 0 (ps !! size) = if decide (0 < size < length text)
                 then length (utf8_text (take size text)) else 0).
  { rewrite Hps. repeat case_decide; try done; try lia. replace size with 0 by lia. done. }
  assert (Hpn : default 0 (ps !! 1) = if decide (1 < length text)
                 then length (utf8_text (take 1 text)) else 0).
  { rewrite Hps. repeat case_decide; done. }
  assert (Eret : (if negb (default 0 (ps !! size) =? 0)
      then Some <$> str_slice (utf8_text text) 0 (default 0 (ps !! size))
      else if chars =? size then Some (Some (utf8_text text)) else Some None) =
    Some (if decide (0 < size <= length text \/ size = 0 /\ text = [])
          then Some (utf8_text (take size text)) else None)).
  { clear Hpn. rewrite Hpe in Hch |- *. destruct (decide (0 < size < length text)) as [Hs|Hs].
    - pose proof (offset_pos text size ltac:(lia) ltac:(lia)).
      rewrite (proj2 (Nat.eqb_neq _ 0)) by lia. cbn [negb].
      rewrite str_slice_to by lia. rewrite decide_True by lia. done.
    - cbn [Nat.eqb negb]. rewrite Hch by done.
      destruct (Nat.eqb_spec (length text) size) as [<-|Hne].
      + rewrite decide_True. { by rewrite firstn_all. }
        destruct text; [by right|left; cbn; lia].
      + rewrite decide_False; [done|]. intros [?|[-> ->]]; [lia|done]. }
  rewrite Eret. cbn [mbind option_bind].
  destruct (to <? size + 1); [|done].
  assert (Edata : (if negb (default 0 (ps !! 1) =? 0)
      then str_slice (utf8_text text) (default 0 (ps !! 1)) (length (utf8_text text))
      else str_slice (utf8_text text) (length (utf8_text text)) (length (utf8_text text)))
    = Some (utf8_text (drop 1 text))).
  { rewrite Hpn. destruct (decide (1 < length text)) as [Hs|Hs].
    - pose proof (offset_pos text 1 ltac:(lia) ltac:(lia)).
      rewrite (proj2 (Nat.eqb_neq _ 0)) by lia. cbn [negb]. by rewrite str_slice_from by lia.
    - cbn [Nat.eqb negb].
      pose proof (str_slice_from text (length text) ltac:(lia)) as E. rewrite firstn_all in E.
      rewrite E, !drop_ge by lia. done. }
  rewrite Edata. done.
Qed.

Lemma str_simulates (s : shingler N) (items : list (list N)) :
  sh_step s = 1 -> 1 <= from_size s -> 1 <= sh_size s ->
  ends slice_next s items -> ends str_next (encoded s) (utf8_text <$> items).
Proof.
  revert s. induction items as [|x items IH]; intros [data from to size step]; cbn [sh_step from_size sh_size];
    intros -> Hf Hs He.
  - destruct (ends_nil_inv _ _ He) as [s' E].
    unfold slice_next in E. cbn [sh_data sh_size to_size from_size sh_step] in E.
    destruct (size <=? length data) eqn:El.
    { apply Nat.leb_le in El. rewrite slice_to in E by done. cbn [mbind option_bind] in E.
      destruct (to <? size + 1); [|done]. rewrite slice_from in E by lia. done. }
    apply Nat.leb_gt in El. eapply ends_nil. unfold encoded. cbn [sh_data sh_size to_size from_size sh_step].
    rewrite str_next_spec. rewrite decide_False by lia. reflexivity.
  - destruct (ends_cons_inv _ _ _ _ He) as (s' & E & He').
    unfold slice_next in E. cbn [sh_data sh_size to_size from_size sh_step] in E.
    destruct (size <=? length data) eqn:El; [|done]. apply Nat.leb_le in El.
    rewrite slice_to in E by done. cbn [mbind option_bind] in E.
    rewrite fmap_cons. eapply ends_cons.
    + unfold encoded at 1. cbn [sh_data sh_size to_size from_size sh_step].
      rewrite str_next_spec. rewrite decide_True by lia.
      destruct (to <? size + 1); [rewrite slice_from in E by lia; cbn [mbind option_bind] in E|];
        injection E as <- <-; reflexivity.
    + destruct (to <? size + 1); [rewrite slice_from in E by lia; cbn [mbind option_bind] in E|];
        injection E as <- <-; apply IH; cbn; try done; lia.
Qed.

Lemma str_never_panics n text from to size :
  (drive str_next n (Shingler (utf8_text text) from to size 1)).2 ≠ Panicked.
Proof.
  revert text size. induction n as [|n IH]; intros text size; [done|].
  cbn [drive]. rewrite str_next_spec. case_decide; [|done]. cbn [snd].
  destruct (to <? size + 1); apply IH.
Qed.

Lemma elem_of_shingle_windows {A} (l : list A) from to x : 1 <= to -> from <= to ->
  x ∈ shingle_windows l from to <->
  exists p s, from <= s <= to /\ p + s <= length l /\ p <= length l + 1 - to /\ x = window l p s.
Proof.
  intros Hto Hft. unfold shingle_windows. set (k := length l + 1 - to).
  rewrite elem_of_app, elem_of_list_join. split.
  - intros [(ws & Hx & Hws)|Hx].
    + apply elem_of_list_fmap in Hws as (p & -> & Hp%elem_of_seq).
      apply elem_of_list_fmap in Hx as (s & -> & Hs%elem_of_seq).
      exists p, s. unfold k in *. repeat split; lia.
    + apply elem_of_list_fmap in Hx as (s & -> & Hs%elem_of_seq).
      exists k, s. unfold k in *. repeat split; lia.
  - intros (p & s & Hs & Hps & Hp & ->). destruct (decide (p < k)) as [Hlt|Hge].
    + left. exists (window l p <$> seq from (to + 1 - from)). split.
      * apply elem_of_list_fmap. exists s. split; [done|]. apply elem_of_seq. lia.
      * apply elem_of_list_fmap. exists p. split; [done|]. apply elem_of_seq. lia.
    + right. assert (p = k) as -> by lia. apply elem_of_list_fmap. exists s. split; [done|].
      apply elem_of_seq. lia.
Qed.

(** ** Splitting is additive *)
Lemma ws_app_sep a c b : c ∈ separators ->
  whitespace_split (a ++ c :: b) = whitespace_split a ++ whitespace_split b.
Proof.
  intros Hc. remember (length a) as n eqn:En. revert a En.
  induction (lt_wf n) as [n _ IH]. intros a ->.
  destruct (split_head a) as [Hall|(t & c' & r & -> & Ht & Hc')].
  - destruct a as [|c' a]; [cbn [app]; by rewrite ws_sep|].
    rewrite ws_token; [|done|done|right; eauto]. rewrite ws_sep by done.
    rewrite <- (app_nil_r (c' :: a)) at 2. rewrite ws_token; [done|done|done|by left].
  - rewrite <- app_assoc. cbn [app].
    assert (E : whitespace_split (c' :: r ++ c :: b) = whitespace_split (c' :: r) ++ whitespace_split b).
    { rewrite !ws_sep by done. apply (IH (length r)); [|done]. rewrite app_length. cbn. lia. }
    destruct t as [|x t]; [exact E|].
    rewrite !ws_token; [|done|done|right; eauto|done|done|right; eauto]. by rewrite E.
Qed.
