(** Facts about reading lines. *)
From stdpp Require Import base list.
From Coq Require Import NArith ZArith Lia.
From Verif Require Import Base Text StringIndex SpecText TextFacts FileLines SpecFile SpecString.
Local Open Scope nat_scope.

Ltac cmp := repeat match goal with
  | |- context [(?x <? ?y)%N] => destruct (N.ltb_spec x y); try (exfalso; lia)
  | |- context [(?x <=? ?y)%N] => destruct (N.leb_spec x y); try (exfalso; lia)
  end; cbn [andb negb orb].

(** ** UTF-8 *)
Lemma decode_two a b l : (2 <= a < 32 -> b < 64)%N -> (2 <= a < 32)%N ->
  decode (192 + a :: 128 + b :: l)%N = cons (a * 64 + b)%N <$> decode l.
Proof.
  intros Hb Ha. specialize (Hb Ha). cbn [decode]. unfold is_continuation. cmp.
  replace ((192 + a - 192) * 64 + (128 + b - 128))%N with (a * 64 + b)%N by lia. done.
Qed.
Lemma decode_three a b c l : (a < 16 -> b < 64 -> c < 64 -> 2048 <= a * 4096 + b * 64 + c ->
  (a * 4096 + b * 64 + c < 55296 \/ 57344 <= a * 4096 + b * 64 + c) ->
  decode (224 + a :: 128 + b :: 128 + c :: l) = cons (a * 4096 + b * 64 + c) <$> decode l)%N.
Proof.
  intros Ha Hb Hc Hlo Hs. cbn [decode]. unfold is_continuation.
  replace ((224 + a - 224) * 4096 + (128 + b - 128) * 64 + (128 + c - 128))%N with (a * 4096 + b * 64 + c)%N by lia.
  cmp; try done; lia.
Qed.
Lemma decode_four a b c d l : (b < 64 -> c < 64 -> d < 64 -> 65536 <= a * 262144 + b * 4096 + c * 64 + d < 1114112 ->
  decode (240 + a :: 128 + b :: 128 + c :: 128 + d :: l) = cons (a * 262144 + b * 4096 + c * 64 + d) <$> decode l)%N.
Proof.
  intros Hb Hc Hd Hlo. cbn [decode]. unfold is_continuation.
  replace ((240 + a - 240) * 262144 + (128 + b - 128) * 4096 + (128 + c - 128) * 64 + (128 + d - 128))%N
    with (a * 262144 + b * 4096 + c * 64 + d)%N by lia.
  cmp; try done; lia.
Qed.

(** The digits of a code point to base 64. *)
Lemma digits2 c : (c = c / 64 * 64 + c mod 64 /\ c mod 64 < 64)%N.
Proof. pose proof (N.div_mod c 64 ltac:(lia)). pose proof (N.mod_lt c 64 ltac:(lia)). lia. Qed.
Lemma digits3 c : (c = c / 4096 * 4096 + c / 64 mod 64 * 64 + c mod 64 /\ c / 64 mod 64 < 64 /\ c mod 64 < 64)%N.
Proof.
  pose proof (digits2 c). pose proof (digits2 (c / 64)). rewrite N.div_div in * by lia. change (64 * 64)%N with 4096%N in *. lia.
Qed.
Lemma digits4 c : (c = c / 262144 * 262144 + c / 4096 mod 64 * 4096 + c / 64 mod 64 * 64 + c mod 64 /\
  c / 4096 mod 64 < 64 /\ c / 64 mod 64 < 64 /\ c mod 64 < 64)%N.
Proof.
  pose proof (digits3 c). pose proof (digits2 (c / 4096)). rewrite N.div_div in * by lia. change (4096 * 64)%N with 262144%N in *. lia.
Qed.
Lemma undigits2 a b : (b < 64 -> (a * 64 + b) / 64 = a /\ (a * 64 + b) mod 64 = b)%N.
Proof.
  intros Hb. split; [symmetry; apply (N.div_unique _ 64 _ b); lia|symmetry; apply (N.mod_unique _ 64 a b); lia].
Qed.
Lemma undigits3 a b c : (b < 64 -> c < 64 -> let x := a * 4096 + b * 64 + c in
  x / 4096 = a /\ x / 64 mod 64 = b /\ x mod 64 = c)%N.
Proof.
  intros Hb Hc. cbn zeta. replace (a * 4096 + b * 64 + c)%N with ((a * 64 + b) * 64 + c)%N by lia.
  destruct (undigits2 (a * 64 + b) c Hc) as [E1 E2]. destruct (undigits2 a b Hb) as [E3 E4].
  change 4096%N with (64 * 64)%N. rewrite <- N.div_div by lia. rewrite E1, E2. done.
Qed.
Lemma undigits4 a b c d : (b < 64 -> c < 64 -> d < 64 -> let x := a * 262144 + b * 4096 + c * 64 + d in
  x / 262144 = a /\ x / 4096 mod 64 = b /\ x / 64 mod 64 = c /\ x mod 64 = d)%N.
Proof.
  intros Hb Hc Hd. cbn zeta. replace (a * 262144 + b * 4096 + c * 64 + d)%N with ((a * 4096 + b * 64 + c) * 64 + d)%N by lia.
  destruct (undigits2 (a * 4096 + b * 64 + c) d Hd) as [E1 E2]. destruct (undigits3 a b c Hb Hc) as (E3 & E4 & E5).
  set (x := ((a * 4096 + b * 64 + c) * 64 + d)%N) in *.
  assert (D1 : (x / 262144 = x / 64 / 4096)%N) by (by rewrite N.div_div).
  assert (D2 : (x / 4096 = x / 64 / 64)%N) by (by rewrite N.div_div).
  rewrite D1, D2, E1, E2. done.
Qed.

Lemma decode_utf8 c l : scalar c -> decode (utf8 c ++ l) = cons c <$> decode l.
Proof.
  unfold scalar, utf8. intros Hc.
  destruct (N.ltb_spec c 128); [|destruct (N.ltb_spec c 2048); [|destruct (N.ltb_spec c 65536)]]; cbn [app].
  - cbn [decode]. by cmp.
  - destruct (digits2 c) as [E Hb]. generalize dependent (c / 64)%N. generalize dependent (c mod 64)%N.
    intros b Hb a E. rewrite decode_two by lia. by rewrite <- E.
  - destruct (digits3 c) as (E & Hb & Hd). generalize dependent (c / 4096)%N. generalize dependent (c / 64 mod 64)%N.
    generalize dependent (c mod 64)%N. intros d Hd b Hb a E. rewrite decode_three by lia. by rewrite <- E.
  - destruct (digits4 c) as (E & Hb & Hd & He). generalize dependent (c / 262144)%N. generalize dependent (c / 4096 mod 64)%N.
    generalize dependent (c / 64 mod 64)%N. generalize dependent (c mod 64)%N. intros e He d Hd b Hb a E.
    rewrite decode_four by lia. by rewrite <- E.
Qed.

Lemma decode_text t : Forall scalar t -> decode (utf8_text t) = Some t.
Proof.
  induction 1 as [|c t Hc _ IH]; [done|]. rewrite utf8_cons, decode_utf8, IH by done. done.
Qed.

Lemma continuation_spec b : is_continuation b = true -> exists x, b = (128 + x)%N /\ (x < 64)%N.
Proof. unfold is_continuation. intros [H1 H2]%andb_prop. exists (b - 128)%N. apply N.leb_le in H1. apply N.ltb_lt in H2. lia. Qed.

Lemma decode_sound n : forall l t, length l <= n -> decode l = Some t -> l = utf8_text t /\ Forall scalar t.
Proof.
  induction n as [|n IH]; intros l t Hn E.
  { destruct l; [|cbn in Hn; lia]. injection E as <-. done. }
  destruct l as [|b1 l1]; [by injection E as <-|]. cbn in Hn. cbn [decode] in E.
  destruct (N.ltb_spec b1 128).
  { apply fmap_Some in E as (t' & E' & ->). destruct (IH l1 t' ltac:(lia) E') as [-> Hf]. rewrite utf8_cons. unfold utf8.
    split; [by cmp|]. constructor; [|done]. unfold scalar. lia. }
  destruct (N.ltb_spec b1 194); [done|]. destruct (N.ltb_spec b1 224).
  { destruct l1 as [|b2 l2]; [done|]. destruct (is_continuation b2) eqn:C2; [|done]. cbn in Hn.
    apply continuation_spec in C2 as (x & -> & Hx). apply fmap_Some in E as (t' & E' & ->).
    destruct (IH l2 t' ltac:(lia) E') as [-> Hf].
    replace ((b1 - 192) * 64 + (128 + x - 128))%N with ((b1 - 192) * 64 + x)%N by lia.
    destruct (undigits2 (b1 - 192) x Hx) as [E1 E2]. rewrite utf8_cons. unfold utf8. rewrite E1, E2.
    split; [cmp; cbn [app]; do 2 f_equal; lia|]. constructor; [|done]. unfold scalar. lia. }
  destruct (N.ltb_spec b1 240).
  { destruct l1 as [|b2 [|b3 l3]]; [done|done|]. cbn in Hn.
    destruct (is_continuation b2) eqn:C2; [|done]. destruct (is_continuation b3) eqn:C3; [|done].
    apply continuation_spec in C2 as (x & -> & Hx). apply continuation_spec in C3 as (y & -> & Hy).
    cbn zeta in E. replace ((b1 - 224) * 4096 + (128 + x - 128) * 64 + (128 + y - 128))%N with ((b1 - 224) * 4096 + x * 64 + y)%N in E by lia.
    destruct (undigits3 (b1 - 224) x y Hx Hy) as (E1 & E2 & E3). cbn zeta in *.
    set (c := ((b1 - 224) * 4096 + x * 64 + y)%N) in *. cbn [andb] in E.
    destruct (N.leb_spec 2048 c); [|done]. destruct (negb _) eqn:Hs; [|done]. cbn [andb] in E.
    apply fmap_Some in E as (t' & E' & ->).
    destruct (IH l3 t' ltac:(lia) E') as [-> Hf].
    rewrite utf8_cons. unfold utf8. rewrite E1, E2, E3.
    assert (c < 65536)%N by (unfold c; lia).
    split; [cmp; cbn [app]; do 3 f_equal; lia|]. constructor; [|done]. unfold scalar.
    apply negb_true_iff, andb_false_iff in Hs as [Hs|Hs]; [apply N.leb_gt in Hs|apply N.ltb_ge in Hs]; lia. }
  destruct (N.ltb_spec b1 245); [|done].
  destruct l1 as [|b2 [|b3 [|b4 l4]]]; [done|done|done|]. cbn in Hn.
  destruct (is_continuation b2) eqn:C2; [|done]. destruct (is_continuation b3) eqn:C3; [|done]. destruct (is_continuation b4) eqn:C4; [|done].
  apply continuation_spec in C2 as (x & -> & Hx). apply continuation_spec in C3 as (y & -> & Hy). apply continuation_spec in C4 as (z & -> & Hz).
  cbn zeta in E. replace ((b1 - 240) * 262144 + (128 + x - 128) * 4096 + (128 + y - 128) * 64 + (128 + z - 128))%N
    with ((b1 - 240) * 262144 + x * 4096 + y * 64 + z)%N in E by lia.
  destruct (undigits4 (b1 - 240) x y z Hx Hy Hz) as (E1 & E2 & E3 & E4). cbn zeta in *.
  set (c := ((b1 - 240) * 262144 + x * 4096 + y * 64 + z)%N) in *. cbn [andb] in E.
  destruct (N.leb_spec 65536 c); [|done]. destruct (N.ltb_spec c 1114112); [|done]. cbn [andb] in E.
  apply fmap_Some in E as (t' & E' & ->).
  destruct (IH l4 t' ltac:(lia) E') as [-> Hf].
  rewrite utf8_cons. unfold utf8. rewrite E1, E2, E3, E4.
  split; [cmp; cbn [app]; do 4 f_equal; lia|]. constructor; [|done]. unfold scalar. lia.
Qed.
Lemma decode_iff l t : decode l = Some t <-> l = utf8_text t /\ Forall scalar t.
Proof. split; [by apply (decode_sound (length l))|]. intros [-> H]. by apply decode_text. Qed.

(** The bytes of characters from 128 on are at least 128. *)
Lemma utf8_small c b : b ∈ utf8 c -> (b < 128)%N -> utf8 c = [b] /\ c = b.
Proof.
  unfold utf8. intros Hb Hlt. revert Hb.
  destruct (c <? 128)%N; [|destruct (c <? 2048)%N; [|destruct (c <? 65536)%N]]; rewrite ?elem_of_cons, ?elem_of_nil.
  - intros [->|[]]. done.
  - intros [E|[E|[]]]; exfalso; revert E; generalize (c / 64)%N (c mod 64)%N; lia.
  - intros [E|[E|[E|[]]]]; exfalso; revert E; generalize (c / 4096)%N (c / 64 mod 64)%N (c mod 64)%N; lia.
  - intros [E|[E|[E|[E|[]]]]]; exfalso; revert E;
      generalize (c / 262144)%N (c / 4096 mod 64)%N (c / 64 mod 64)%N (c mod 64)%N; lia.
Qed.
Lemma utf8_text_elem b t : (b < 128)%N -> b ∈ utf8_text t <-> b ∈ t.
Proof.
  intros Hb. induction t as [|c t IH]; [done|]. rewrite utf8_cons, elem_of_app, elem_of_cons, IH.
  split; (intros [H|H]; [left|by right]).
  - by destruct (utf8_small c b H Hb).
  - subst c. unfold utf8. destruct (N.ltb_spec b 128); [by left|lia].
Qed.

Lemma utf8_snoc b t : (b < 128)%N -> utf8_text (t ++ [b]) = utf8_text t ++ [b].
Proof.
  intros Hb. rewrite utf8_app. f_equal. unfold utf8_text, utf8. cbn. destruct (N.ltb_spec b 128); [done|lia].
Qed.
Lemma utf8_text_snoc l b t : (b < 128)%N -> l ++ [b] = utf8_text t -> exists t', t = t' ++ [b] /\ l = utf8_text t'.
Proof.
  intros Hb E. destruct t as [|c t _] using rev_ind; [by destruct l|].
  rewrite utf8_app in E. unfold utf8_text at 2 in E. cbn in E. rewrite app_nil_r in E.
  assert (Hin : b ∈ utf8 c).
  { destruct (utf8 c) as [|x r _] eqn:Eu using rev_ind; [pose proof (utf8_pos c) as H; rewrite Eu in H; cbn in H; lia|].
    rewrite app_assoc in E. apply app_inj_tail in E as [_ ->]. set_solver. }
  destruct (utf8_small c b Hin Hb) as [Eu ->]. rewrite Eu in E. apply app_inj_tail in E as [-> _]. eauto.
Qed.
Lemma decode_snoc l b : (b < 128)%N -> decode (l ++ [b]) = (fun t => t ++ [b]) <$> decode l.
Proof.
  intros Hb. assert (Hs : scalar b) by (unfold scalar; lia). destruct (decode l) as [t|] eqn:E; cbn.
  - apply decode_iff in E as [-> Hf]. apply decode_iff. split; [by rewrite utf8_snoc|].
    apply Forall_app. split; [done|]. by constructor.
  - destruct (decode (l ++ [b])) as [t|] eqn:E'; [|done]. apply decode_iff in E' as [El Hf].
    destruct (utf8_text_snoc l b t Hb El) as (t' & -> & ->). apply Forall_app in Hf as [Hf _].
    by rewrite decode_text in E.
Qed.

(** ** Lines *)

Lemma read_segment p ev st : one_line p.1 -> read_until (events p ++ ev) st =
  (match p.2 with LineFeed => Some (p.1 ++ [10%N]) | ReadError => None end, ev).
Proof.
  destruct p as [l e]. unfold one_line, events. cbn [fst snd]. induction l as [|b l IH]; intros Hp.
  - by destruct e.
  - cbn [fmap list_fmap app read_until]. destruct (N.eqb_spec b 10) as [->|Hb]; [set_solver|].
    rewrite IH by set_solver. by destruct e.
Qed.
Lemma read_tail q st : one_line q -> read_until (Some <$> q) st = (if st then None else Some q, []).
Proof.
  unfold one_line. induction q as [|b q IH]; intros Hp; [by destruct st|]. cbn [fmap list_fmap read_until].
  destruct (N.eqb_spec b 10) as [->|Hb]; [set_solver|]. rewrite IH by set_solver. by destruct st.
Qed.

Ltac by_digits := repeat match goal with |- context [match ?p with _ => _ end] => is_var p; destruct p end; try congruence; try done.
Lemma strip_feed t : strip_end (t ++ [10%N]) = without_cr t.
Proof.
  unfold strip_end, without_cr. rewrite rev_app_distr. cbn [rev app].
  destruct t as [|c t _] using rev_ind; [done|]. rewrite rev_app_distr, last_snoc, removelast_last. cbn [rev app].
  destruct (decide (c = 13%N)) as [->|Hc]; [by rewrite rev_involutive|].
  rewrite !rev_involutive. by_digits.
Qed.
Lemma strip_plain t : (10%N) ∉ t -> strip_end t = t.
Proof.
  intros Ht. unfold strip_end. destruct t as [|c t _] using rev_ind; [done|]. rewrite rev_app_distr. cbn [rev app].
  assert (Hc : c <> 10%N) by set_solver. clear Ht. by_digits.
Qed.

Lemma next_segment p ev st : one_line p.1 -> lines_next (Reader (events p ++ ev) st) = Ok (Some (line_of decode p), Reader ev st).
Proof.
  intros Hp. unfold lines_next. cbn [pending stuck]. rewrite read_segment by done. destruct p as [l []]; cbn [fst snd]; [|done].
  destruct (l ++ [10%N]) as [|b r] eqn:E; [by destruct l|]. rewrite <- E. rewrite decode_snoc by lia. unfold line_of. cbn [fst snd].
  do 3 f_equal. rewrite <- option_fmap_compose. apply option_fmap_ext. intros t. apply strip_feed.
Qed.
Lemma next_tail q : q <> [] -> one_line q -> lines_next (Reader (Some <$> q) false) = Ok (Some (decode q), Reader [] false).
Proof.
  intros Hq Hp. unfold lines_next. cbn [pending stuck]. rewrite read_tail by done.
  destruct q as [|b r] eqn:E; [done|]. rewrite <- E in *. do 3 f_equal. destruct (decode q) as [t|] eqn:Ed; [|done]. cbn. f_equal.
  apply strip_plain. apply decode_iff in Ed as [Eq _]. rewrite Eq in Hp. unfold one_line in Hp. rewrite utf8_text_elem in Hp by lia. done.
Qed.

Lemma events_cons p ps : concat (events <$> p :: ps) = events p ++ concat (events <$> ps).
Proof. done. Qed.
Lemma drive_segments n ps ev st : Forall (fun p => one_line p.1) ps ->
  drive lines_next (length ps + n) (Reader (concat (events <$> ps) ++ ev) st) =
  ((line_of decode <$> ps) ++ (drive lines_next n (Reader ev st)).1, (drive lines_next n (Reader ev st)).2).
Proof.
  induction 1 as [|p ps Hp _ IH]; [by destruct (drive _ _ _)|].
  rewrite events_cons, <- app_assoc. cbn [length Nat.add drive]. rewrite next_segment by done.
  rewrite IH. done.
Qed.

Lemma lines_exact ps q n : Forall (fun p => one_line p.1) ps -> one_line q -> length ps + 2 <= n \/ (q = [] /\ length ps + 1 <= n) ->
  lines_upto n (Reader (concat (events <$> ps) ++ (Some <$> q)) false) =
  ((line_of decode <$> ps) ++ (if decide (q = []) then [] else [decode q]), Ended).
Proof.
  intros Hps Hq Hn. unfold lines_upto. replace n with (length ps + (n - length ps)) by lia. rewrite drive_segments by done.
  destruct (decide (q = [])) as [->|Hne].
  - destruct (n - length ps) as [|k] eqn:Ek; [lia|]. done.
  - destruct Hn as [Hn|[? _]]; [|done]. destruct (n - length ps) as [|[|k]] eqn:Ek; [lia|lia|].
    cbn [drive]. rewrite next_tail by done. done.
Qed.

Lemma events_length ps : length ps <= length (concat (events <$> ps)).
Proof.
  induction ps as [|p ps IH]; [done|]. rewrite events_cons. cbn [length]. rewrite app_length. unfold events at 1.
  rewrite app_length. cbn. lia.
Qed.
Lemma file_exact ps q : Forall (fun p => one_line p.1) ps -> one_line q ->
  file_lines (Reader (concat (events <$> ps) ++ (Some <$> q)) false) =
  (line_of decode <$> ps) ++ (if decide (q = []) then [] else [decode q]).
Proof.
  intros Hps Hq. unfold file_lines. cbn [pending]. rewrite lines_exact; [done|done|done|].
  rewrite app_length, fmap_length. pose proof (events_length ps). destruct q; [right|left]; cbn; split || idtac; lia || done.
Qed.

Lemma lines_stuck ps q n : Forall (fun p => one_line p.1) ps -> one_line q ->
  lines_upto n (Reader (concat (events <$> ps) ++ (Some <$> q)) true) =
  (take n (line_of decode <$> ps) ++ replicate (n - length ps) None, Running).
Proof.
  intros Hps Hq. unfold lines_upto.
  assert (Hend : forall k, drive lines_next k (Reader [] true) = (replicate k None, Running)).
  { induction k as [|k IH]; [done|]. cbn [drive lines_next pending stuck read_until]. by rewrite IH. }
  revert n. induction Hps as [|p ps Hp _ IH]; intros n.
  - cbn [fmap list_fmap concat app length]. rewrite Nat.sub_0_r, take_nil. destruct n as [|n]; [done|].
    cbn [drive]. unfold lines_next at 1. cbn [pending stuck]. rewrite read_tail by done. by rewrite Hend.
  - destruct n as [|n]; [done|]. rewrite events_cons, <- app_assoc. cbn [drive].
    rewrite next_segment by done. by rewrite IH.
Qed.

(** Every reader is a sequence of stretches and a rest. *)
Lemma decompose (ev : list (option N)) : exists ps q, Forall (fun p => one_line p.1) ps /\ one_line q /\
  ev = concat (events <$> ps) ++ (Some <$> q).
Proof.
  induction ev as [|[b|] ev (ps & q & Hps & Hq & ->)].
  - exists [], []. split; [done|]. split; [unfold one_line; set_solver|done].
  - destruct (decide (b = 10%N)) as [->|Hb].
    + exists (([], LineFeed) :: ps), q. split; [constructor; [unfold one_line; set_solver|done]|]. done.
    + destruct ps as [|[l e] ps].
      * exists [], (b :: q). split; [done|]. split; [unfold one_line in *; set_solver|done].
      * inversion_clear Hps as [|? ? Hl Hps']. exists ((b :: l, e) :: ps), q.
        split; [constructor; [unfold one_line in *; set_solver|done]|]. done.
  - exists (([], ReadError) :: ps), q. split; [constructor; [unfold one_line; set_solver|done]|]. done.
Qed.

(** ** Files of texts *)
Lemma without_cr_snoc t : without_cr (t ++ [13%N]) = t.
Proof. unfold without_cr. by rewrite last_snoc, removelast_last. Qed.
Lemma without_cr_id t : last t <> Some 13%N -> without_cr t = t.
Proof.
  intros Ht. unfold without_cr. destruct (last t) as [c|]; [|done].
  by_digits.
Qed.

Lemma file_round (docs : list (text * bool)) (rest : text) :
  Forall fits docs ->
  Forall scalar rest -> one_line rest ->
  file_lines (Reader (Some <$> file_of docs ++ utf8_text rest) false) =
  (Some <$> docs.*1) ++ (if decide (rest = []) then [] else [Some rest]).
Proof.
  intros Hd Hr Hr10.
  set (seg := fun d : text * bool => (utf8_text d.1 ++ (if d.2 then [13%N] else []), LineFeed)).
  assert (E : Some <$> file_of docs ++ utf8_text rest = concat (events <$> (seg <$> docs)) ++ (Some <$> utf8_text rest)).
  { rewrite fmap_app. f_equal. clear Hd. unfold file_of. induction docs as [|[d b] docs IH]; [done|].
    cbn [fmap list_fmap concat]. rewrite fmap_app, IH. f_equal. unfold events, seg. cbn [fst snd].
    rewrite !fmap_app, <- app_assoc. f_equal. by destruct b. }
  rewrite E, file_exact.
  - f_equal.
    + rewrite <- list_fmap_compose, <- list_fmap_compose. apply list_fmap_ext. intros i [d b] Hi.
      rewrite Forall_lookup in Hd. destruct (Hd i _ Hi) as (Hs & _ & Hc). cbn [fst snd] in *. unfold compose, line_of, seg. cbn [fst snd].
      destruct b.
      * rewrite decode_snoc, decode_text by (lia || done). cbn. by rewrite without_cr_snoc.
      * rewrite app_nil_r, decode_text by done. cbn. rewrite without_cr_id; auto.
    + destruct (decide (rest = [])) as [->|Hne]; [done|]. rewrite decide_False.
      * by rewrite decode_text.
      * destruct rest as [|c rest]; [done|]. rewrite utf8_cons. pose proof (utf8_pos c). destruct (utf8 c); cbn in *; [lia|done].
  - apply Forall_fmap. eapply Forall_impl; [exact Hd|]. intros [d b] (_ & H10 & _). unfold seg, one_line. cbn [fst snd compose] in *.
    rewrite elem_of_app, utf8_text_elem by lia. destruct b; unfold one_line in H10; set_solver.
  - unfold one_line. by rewrite utf8_text_elem.
Qed.

Lemma meaning_eq meaning l : is_utf8 meaning -> meaning l = decode l.
Proof.
  intros Hm. destruct (meaning l) as [t|] eqn:E.
  - apply Hm in E. symmetry. by apply decode_iff.
  - destruct (decode l) as [t|] eqn:E'; [|done]. apply decode_iff, Hm in E'. congruence.
Qed.
Lemma line_eq meaning p : is_utf8 meaning -> line_of meaning p = line_of decode p.
Proof. intros Hm. unfold line_of. by rewrite meaning_eq. Qed.

(** ** Loading *)
Lemma readable_file meaning ps q : is_utf8 meaning -> Forall (fun p => one_line p.1) ps -> one_line q ->
  readable (Some (file_lines (Reader (concat (events <$> ps) ++ (Some <$> q)) false))) =
  omap (line_of meaning) ps ++ (if decide (q = []) then [] else match meaning q with Some t => [t] | None => [] end).
Proof.
  intros Hm Hps Hq. rewrite file_exact by done. unfold readable. rewrite omap_app. f_equal.
  - clear Hps. induction ps as [|p ps IH]; [done|]. cbn. rewrite (line_eq meaning p Hm). rewrite IH. by destruct (line_of decode p).
  - rewrite (meaning_eq meaning q Hm). destruct (decide (q = [])); [done|]. cbn. by destruct (decode q).
Qed.
Lemma readable_round docs rest : Forall fits docs -> Forall scalar rest -> one_line rest ->
  readable (Some (file_lines (Reader (Some <$> file_of docs ++ utf8_text rest) false))) =
  docs.*1 ++ (if decide (rest = []) then [] else [rest]).
Proof.
  intros Hd Hr Hq. rewrite file_round by done. unfold readable. rewrite omap_app. f_equal.
  - clear Hd. induction docs as [|d docs IH]; [done|]. cbn. by f_equal.
  - repeat case_decide; done.
Qed.
Lemma all_readable_round docs rest : Forall fits docs -> Forall scalar rest -> one_line rest ->
  all_readable (Some (file_lines (Reader (Some <$> file_of docs ++ utf8_text rest) false))) = true.
Proof.
  intros Hd Hr Hq. rewrite file_round by done. unfold all_readable. apply bool_decide_eq_true.
  rewrite elem_of_app. intros [H|H].
  - apply elem_of_list_fmap in H as (? & ? & _). done.
  - case_decide; [by apply elem_of_nil in H|]. by apply elem_of_list_singleton in H.
Qed.
