(** Lemmas about the arguments of the Python class SimHashStringIndex. *)
From stdpp Require Import base list gmap strings.
From Coq Require Import NArith ZArith SpecFloat Lia.
From Verif Require Import Base Float StringIndex PyTokenizer PyMinHash PySimHash PyArgs SpecPyArgs PyArgsFacts
  PySimArgs SpecPySimArgs.

Local Notation I := i64_decides.
Local Notation S := str_decides.
Local Notation SV := (vec_decides _ _ _ str_decides).

(** ** Insertions *)
Lemma sdyn_call_ret an id doc c : sdyn_call an id doc = Ret c <-> saccepted an id doc c.
Proof.
  split.
  - destruct an as [|f]; cbn [sdyn_call]; intros H; repeat (apply bind_ret in H as (? & ?Hx & H)); injection H as <-.
    + constructor; [by apply I|by apply S].
    + econstructor; [done|by apply I|by apply SV].
  - intros H. destruct H as [id doc i d H1 H2|f id doc i t ts H1 H2 H3]; cbn [sdyn_call].
    + apply I in H1. apply S in H2. by rewrite H1, H2.
    + unfold returns in H1. apply I in H2. apply SV in H3. rewrite H1. cbn [mbind outcome_bind]. by rewrite H2, H3.
Qed.
Lemma sdyn_call_raise an id doc e : sdyn_call an id doc = Raise e <-> srejected an id doc e.
Proof.
  split.
  - destruct an as [|f]; cbn [sdyn_call]; intros H.
    + apply bind_raise in H as [H|(i & H1 & H)]; [constructor; by apply I|].
      apply bind_raise in H as [H|(d & H2 & H)]; [|done]. eapply srej_doc; [by apply I|by apply S].
    + apply bind_raise in H as [H|(t & H1 & H)]; [by constructor|].
      apply bind_raise in H as [H|(i & H2 & H)]; [eapply srej_callable_id; [done|by apply I]|].
      apply bind_raise in H as [H|(d & H3 & H)]; [|done]. eapply srej_tokens; [done|by apply I|by apply SV].
  - intros H. destruct H as [id doc e H|id doc i e H1 H2|f id doc e H|f id doc t e H1 H2|f id doc t i e H1 H2 H3];
      cbn [sdyn_call].
    + apply I in H. by rewrite H.
    + apply I in H1. apply S in H2. by rewrite H1, H2.
    + unfold throws in H. by rewrite H.
    + unfold returns in H1. apply I in H2. rewrite H1. cbn [mbind outcome_bind]. by rewrite H2.
    + unfold returns in H1. apply I in H2. apply SV in H3. rewrite H1. cbn [mbind outcome_bind]. by rewrite H2, H3.
Qed.

Section Step.
Context (lower : text -> text)
        (shingles_str : list N -> nat -> option (list (list N)))
        (shingles_words : list (list N) -> nat -> option (list (list (list N)))).
Context (W : nat) (hash : token -> N).
Notation dins := (sdyn_insert lower shingles_str shingles_words W hash).
Notation drun := (sdyn_run lower shingles_str shingles_words W hash).
Notation nrun := (ps_run lower shingles_str shingles_words W hash).

Lemma sinsert_unchanged m id doc e :
  (srejected (sd_analyzer m) id doc e -> dins m id doc = (m, Some e)) /\
  ((dins m id doc).2 = Some e -> e <> EPanic -> (dins m id doc).1 = m).
Proof.
  split.
  - intros H. apply sdyn_call_raise in H. unfold sdyn_insert. by rewrite H.
  - unfold sdyn_insert. destruct (sdyn_call _ id doc) as [c|e']; [|done]. cbn [fst snd].
    destruct (ps_step _ _ _ _ _ _ _).2; congruence.
Qed.

Lemma srun_calls l : forall m, exists cs, scalls (sd_analyzer m) l cs /\
  drun m l = SDynIndex (nrun (sd_native m) cs) (sd_analyzer m).
Proof.
  induction l as [|[id doc] l IH]; intros m; [exists []; split; [constructor|by destruct m]|].
  unfold sdyn_run. cbn [fold_left fst snd]. destruct (sdyn_call (sd_analyzer m) id doc) as [c|e] eqn:E.
  - assert (Ei : (dins m id doc).1 =
      SDynIndex (ps_step lower shingles_str shingles_words W hash (sd_native m) c).1 (sd_analyzer m)).
    { unfold sdyn_insert. by rewrite E. }
    destruct (IH (dins m id doc).1) as (cs & Hc & Hr). unfold sdyn_run in Hr. rewrite Hr, Ei in *. cbn [sd_analyzer sd_native] in *.
    exists (c :: cs). split; [|done]. constructor; [by apply sdyn_call_ret|done].
  - assert (Ei : (dins m id doc).1 = m) by (unfold sdyn_insert; by rewrite E).
    rewrite Ei. destruct (IH m) as (cs & Hc & Hr). exists cs. split; [|done].
    econstructor; [by apply sdyn_call_raise|done].
Qed.
End Step.

(** ** Conversions of the constructor *)
Lemma count_decides : decides to_usize count_is count_bad.
Proof.
  split; intros v r; unfold to_usize.
  - rewrite bind_ret. split.
    + intros (z & H & [= <-]). apply to_int_ret in H as [Hw Hr].
      assert (Ez : Z.of_nat (Z.to_nat z) = z) by lia. split; rewrite Ez; [done|lia].
    + intros [Hw Hr]. exists (Z.of_nat r). split; [apply to_int_ret; split; [done|lia]|]. f_equal. lia.
  - rewrite bind_raise. split.
    + intros [H|(z & _ & [=])]. by apply to_int_raise in H.
    + intros H. left. by apply to_int_raise.
Qed.
Lemma bool_decides : decides to_bool bool_is bool_bad.
Proof.
  split; intros v r; destruct v; cbn [to_bool].
  all: try (split; [done|]; intros H; inversion H; fail).
  all: try (split; [intros [= <-]; split; [by intros [? [=]]|done]|intros [_ ->]; done]; fail).
  - split; [intros [= <-]; constructor|]. intros H. by inversion H.
  - split; [done|]. intros [H _]. exfalso. apply H. eauto.
Qed.
Lemma pair_decides : decides to_pair pair_is pair_bad.
Proof.
  split; intros v r.
  - split.
    + destruct v as [| | | | | |l| |]; cbn [to_pair]; try done. destruct l as [|a [|b [|c l]]]; try done.
      intros H. apply bind_ret in H as (x & Hx & H). apply bind_ret in H as (y & Hy & [= <-]).
      constructor; by apply count_decides.
    + intros H. destruct H as [a b x y Hx Hy]. cbn [to_pair]. apply count_decides in Hx, Hy. by rewrite Hx, Hy.
  - split.
    + destruct v as [| | | | | |l| |]; cbn [to_pair];
        try (intros [= <-]; left; split; [by intros [? [=]]|done]; fail).
      destruct l as [|a [|b [|c l]]].
      4: { intros [= <-]. right; left. eexists. split; [reflexivity|]. split; [|done]. cbn [length]. lia. }
      1-2: intros [= <-]; right; left; eexists; split; [reflexivity|]; split; [|done]; cbn [length]; lia.
      intros H. right; right. exists a, b. split; [done|].
      apply bind_raise in H as [H|(x & Hx & H)]; [left; by apply count_decides|].
      apply bind_raise in H as [H|(y & Hy & H)]; [|done]. right. exists x. split; by apply count_decides.
    + intros [[Hn ->]|[(l & -> & Hl & ->)|(a & b & -> & H)]].
      * destruct v; cbn [to_pair]; try done. exfalso. apply Hn. eauto.
      * cbn [to_pair]. destruct l as [|a [|b [|c l]]]; done.
      * cbn [to_pair]. destruct H as [H|(n & H1 & H2)].
        -- apply count_decides in H. by rewrite H.
        -- apply count_decides in H1, H2. by rewrite H1, H2.
Qed.
Lemma option_decides {A} (conv : pyval -> PyArgs.outcome A) good bad : decides conv good bad ->
  decides (to_option conv) (opt_is good) (opt_bad bad).
Proof.
  intros [Hg Hb].
  assert (Hv : forall v, v = VNone \/ v <> VNone /\ to_option conv v = (a ← conv v; Ret (Some a)))
    by (intros v; destruct v; [by left|by right..]).
  split; intros v r; destruct (Hv v) as [->|[Hn ->]].
  - cbn [to_option]. split; [intros [= <-]; constructor|]. intros H. inversion H; [done|]. congruence.
  - rewrite bind_ret. split.
    + intros (a & Ha & [= <-]). constructor; [done|]. by apply Hg.
    + intros H. destruct H as [|v a _ H]; [done|]. exists a. split; [by apply Hg|done].
  - cbn [to_option]. split; [done|]. by intros [H _].
  - rewrite bind_raise. split.
    + intros [H|(a & _ & [=])]. split; [done|by apply Hb].
    + intros [_ H]. left. by apply Hb.
Qed.

Lemma equals_is v n : n <> 0%N -> n <> 1%N -> equals_int v n = true <-> equal_to v n.
Proof.
  intros H0 H1. destruct v as [|[]| | | | | | |]; cbn [equals_int];
    try (split; [done|]; intros H; inversion H; fail).
  - split; [|intros H; inversion H]. intros H. apply N.eqb_eq in H. congruence.
  - split; [|intros H; inversion H]. intros H. apply N.eqb_eq in H. congruence.
  - rewrite Z.eqb_eq. split; [intros ->; constructor|]. intros H. by inversion H.
  - split; [by constructor|]. intros H. by inversion H.
Qed.
Lemma equal_both v : equals_int v 64 = true -> equals_int v 128 = true -> False.
Proof.
  destruct v as [|[]|z|x| | | | |]; cbn [equals_int]; try done.
  - rewrite !Z.eqb_eq. lia.
  - assert (E64 : f64_of_N 64 = S754_finite false 4503599627370496 (-46)) by (vm_compute; reflexivity).
    assert (E128 : f64_of_N 128 = S754_finite false 4503599627370496 (-45)) by (vm_compute; reflexivity).
    rewrite E64, E128. intros H1 H2. apply float_equal in H1, H2. congruence.
Qed.
Lemma width_decides : decides sdyn_width width_is (fun v e => (~ exists W, width_is v W) /\ e = EValueError).
Proof.
  assert (H64 : forall v, equals_int v 64 = true <-> equal_to v 64) by (intros; by apply equals_is).
  assert (H128 : forall v, equals_int v 128 = true <-> equal_to v 128) by (intros; by apply equals_is).
  split; intros v r; unfold sdyn_width.
  - destruct (equals_int v 64) eqn:E1; [|destruct (equals_int v 128) eqn:E2].
    + split; [intros [= <-]; constructor; by apply H64|]. intros H. inversion H as [? E|? E]; [done|].
      apply H128 in E. exfalso. by eapply equal_both.
    + split; [intros [= <-]; constructor; by apply H128|]. intros H. inversion H as [? E|? E]; [|done].
      apply H64 in E. congruence.
    + split; [done|]. intros H. inversion H as [? E|? E]; [apply H64 in E|apply H128 in E]; congruence.
  - destruct (equals_int v 64) eqn:E1; [|destruct (equals_int v 128) eqn:E2].
    + split; [done|]. intros [H _]. exfalso. apply H. eexists. constructor. by apply H64.
    + split; [done|]. intros [H _]. exfalso. apply H. eexists. apply width_128. by apply H128.
    + split; [|by intros [_ ->]]. intros [= <-]. split; [|done]. intros [W H].
      inversion H as [? E|? E]; [apply H64 in E|apply H128 in E]; congruence.
Qed.

(** ** Comparison *)
Lemma scale_le m e m' e' k k' : (k <= e -> k <= e' -> k' <= e -> k' <= e' -> k <= k' ->
  m' * 2 ^ (e' - k) <= m * 2 ^ (e - k) <-> m' * 2 ^ (e' - k') <= m * 2 ^ (e - k'))%Z.
Proof.
  intros H1 H2 H3 H4 H5.
  replace (e' - k)%Z with ((e' - k') + (k' - k))%Z by lia. replace (e - k)%Z with ((e - k') + (k' - k))%Z by lia.
  rewrite !Z.pow_add_r by lia. pose proof (Z.pow_pos_nonneg 2 (k' - k) ltac:(lia) ltac:(lia)) as Hp.
  rewrite !Z.mul_assoc. symmetry. apply Z.mul_le_mono_pos_r. done.
Qed.
Lemma value_number v m e : value_is v m e <-> to_number v = Some (Scaled m e).
Proof.
  split.
  - intros H. destruct H as [v z H| | |]; try done. by destruct H.
  - destruct v as [|[]|z|[s|s| |s m' e']| | | | |]; cbn [to_number]; try done.
    + intros [= <- <-]. apply val_whole. constructor.
    + intros [= <- <-]. apply val_whole. constructor.
    + intros [= <- <-]. apply val_whole. constructor.
    + intros [= <- <-]. apply val_zero.
    + destruct s; intros [= <- <-]; constructor.
Qed.
Lemma infinite_number s v : infinite s v <-> to_number v = Some (Infinite s).
Proof.
  unfold infinite. split; [by intros ->|].
  destruct v as [|[]|z|[s'|s'| |s' m' e']| | | | |]; cbn [to_number]; try done. by intros [= ->].
Qed.
Lemma undefined_number v : undefined v <-> to_number v = Some NotANumber.
Proof.
  unfold undefined. split; [by intros ->|].
  destruct v as [|[]|z|[s'|s'| |s' m' e']| | | | |]; cbn [to_number]; done.
Qed.
Lemma numeric_number v : numeric v <-> exists n, to_number v = Some n.
Proof.
  unfold numeric. split.
  - intros [[z H]|[x ->]]; [destruct H; by eexists|]. destruct x; cbn [to_number]; by eexists.
  - intros [n H]. destruct v as [|[]|z|x| | | | |]; try done; [left; eexists; constructor..|right; by eexists].
Qed.
Lemma at_least_ge x y a b : to_number x = Some a -> to_number y = Some b ->
  at_least x y <-> number_ge a b = true.
Proof.
  intros Ha Hb. unfold at_least. rewrite !infinite_number, !undefined_number. split.
  - intros [(m & e & m' & e' & H1 & H2 & H)|[[H1 H2]|[H1 H2]]].
    + apply value_number in H1, H2. rewrite H1 in Ha. rewrite H2 in Hb. injection Ha as <-. injection Hb as <-.
      cbn [number_ge]. apply Z.leb_le. apply H; lia.
    + rewrite H1 in Ha. injection Ha as <-. destruct b; (done || congruence).
    + rewrite H1 in Hb. injection Hb as <-. destruct a as [| []|]; (done || congruence).
  - destruct a as [m e|s|], b as [m' e'|s'|]; cbn [number_ge]; try done; try (by destruct s).
    + intros H. apply Z.leb_le in H. left. exists m, e, m', e'. split; [by apply value_number|].
      split; [by apply value_number|]. intros k H1 H2. apply (scale_le m e m' e' k (Z.min e e')); [lia..|done].
    + destruct s'; [|done]. intros _. right; right. split; [done|]. congruence.
    + destruct s; [done|]. intros _. right; left. split; [done|]. congruence.
    + destruct s; [destruct s'; [|done]|]; intros _; [right; right|right; left]; (split; [done|congruence]).
Qed.
Lemma at_least_whole x y z z' : whole x z -> whole y z' -> at_least x y <-> (z' <= z)%Z.
Proof.
  intros Hx Hy. assert (Ex : to_number x = Some (Scaled z 0)) by (by apply value_number; constructor).
  assert (Ey : to_number y = Some (Scaled z' 0)) by (by apply value_number; constructor).
  rewrite (at_least_ge _ _ _ _ Ex Ey). cbn [number_ge]. change (0 - Z.min 0 0)%Z with 0%Z.
  rewrite Z.leb_le. lia.
Qed.
Lemma compare_ret nb hd u : sdyn_compare nb hd = Ret u <-> numbers nb hd /\ ~ at_least hd nb.
Proof.
  unfold sdyn_compare, numbers. rewrite !numeric_number. destruct (to_number nb) as [x|] eqn:E1.
  2: { split; [done|]. intros [[[n [=]] _] _]. }
  destruct (to_number hd) as [y|] eqn:E2.
  2: { split; [done|]. intros [[_ [n [=]]] _]. }
  rewrite (at_least_ge _ _ _ _ E2 E1). destruct u. destruct (number_ge y x); split; try done; eauto.
  by intros [_ H].
Qed.
Lemma compare_raise nb hd e : sdyn_compare nb hd = Raise e <->
  ~ numbers nb hd /\ e = ETypeError \/ numbers nb hd /\ at_least hd nb /\ e = EValueError.
Proof.
  unfold sdyn_compare, numbers. rewrite !numeric_number. destruct (to_number nb) as [x|] eqn:E1.
  2: { split; [intros [= <-]; left; split; [|done]; by intros [[n [=]] _]|].
       intros [[_ ->]|[[[n [=]] _] _]]. done. }
  destruct (to_number hd) as [y|] eqn:E2.
  2: { split; [intros [= <-]; left; split; [|done]; by intros [_ [n [=]]]|].
       intros [[_ ->]|[[_ [n [=]]] _]]. done. }
  rewrite (at_least_ge _ _ _ _ E2 E1). destruct (number_ge y x).
  - split; [intros [= <-]; right; split; [split; by eexists|done]|]. intros [[H _]|(_ & _ & ->)]; [|done]. exfalso. apply H; eauto.
  - split; [done|]. intros [[H _]|(_ & [=] & _)]. exfalso. apply H; eauto.
Qed.

(** ** The analyzer *)
Definition kept (an : analyzer_arg) : dyn_analyzer := match an with ACallable f => DCallable f | AObject _ => DNamed end.
Section New.
Context (hashable : pyval -> bool) (Hstr : forall cs, hashable (VStr cs) = true).

Lemma sname_kept an name an' : sname_is an name an' -> an' = kept an.
Proof. by intros []. Qed.
Lemma name_ret an name : sdyn_name hashable an = Ret name <-> sname_is an name (kept an).
Proof.
  split.
  - destruct an as [f|v]; cbn [sdyn_name kept]; [intros [= <-]; constructor|].
    destruct (hashable v); [|done]. destruct v; try done.
    change (literal "word") with [119; 111; 114; 100]%N. change (literal "char") with [99; 104; 97; 114]%N.
    case_bool_decide as E1; [intros [= <-]; subst; constructor|].
    case_bool_decide as E2; [intros [= <-]; subst; constructor|]. done.
  - intros H. inversion H; subst; cbn [sdyn_name]; rewrite ?Hstr; reflexivity.
Qed.
Lemma name_raise an e : sdyn_name hashable an = Raise e <->
  exists v, an = AObject v /\ (~ exists name an', sname_is an name an') /\
    e = (if hashable v then EValueError else ETypeError).
Proof.
  split.
  - intros H. assert (Hno : ~ exists name an', sname_is an name an').
    { intros (name & an' & Hn). pose proof (sname_kept _ _ _ Hn) as ->. apply name_ret in Hn. congruence. }
    destruct an as [f|v]; cbn [sdyn_name] in H; [done|]. exists v. split; [done|]. split; [done|].
    destruct (hashable v); [|congruence]. destruct v; try congruence.
    case_bool_decide; [done|]. case_bool_decide; [done|]. congruence.
  - intros (v & -> & Hno & ->). destruct (sdyn_name hashable (AObject v)) as [n|e] eqn:E.
    + exfalso. apply Hno. exists n, (kept (AObject v)). by apply name_ret.
    + cbn [sdyn_name] in E. destruct (hashable v); [|congruence]. destruct v; try congruence.
      case_bool_decide; [done|]. case_bool_decide; [done|]. congruence.
Qed.

Context (hash_size num_blocks hamming_distance : pyval) (an : analyzer_arg) (lowercase range : pyval).
Notation made := (sdyn_new hashable hash_size num_blocks hamming_distance an lowercase range).
Notation fails := (sfails hashable hash_size num_blocks hamming_distance an lowercase range).
Notation makes := (smakes hash_size num_blocks hamming_distance an lowercase range).

Lemma of_res_ret {A} (r : res A) a : of_res r = Ret a <-> r = Some a.
Proof. destruct r; split; intros H; inversion H; done. Qed.
Lemma of_res_raise {A} (r : res A) e : of_res r = Raise e <-> r = None /\ e = EPanic.
Proof. destruct r; (split; [intros H; by inversion H|intros [H1 H2]; by subst]). Qed.

Lemma snew_ret W m an' : made = Ret (W, SDynIndex m an') <-> makes W m an'.
Proof.
  unfold sdyn_new. split.
  - intros H. apply bind_ret in H as (W' & H1 & H). apply bind_ret in H as (u & H2 & H).
    apply bind_ret in H as (name & H3 & H). apply bind_ret in H as (nb & H4 & H). apply bind_ret in H as (hd & H5 & H).
    apply bind_ret in H as (lc & H6 & H). apply bind_ret in H as (r & H7 & H). apply bind_ret in H as (m' & H8 & H).
    injection H as <- <- <-. apply width_decides in H1. apply compare_ret in H2 as [_ H2]. apply name_ret in H3.
    apply count_decides in H4, H5. apply (option_decides _ _ _ bool_decides) in H6.
    apply (option_decides _ _ _ pair_decides) in H7. apply of_res_ret in H8.
    econstructor; try done. rewrite (at_least_whole _ _ _ _ (proj1 H5) (proj1 H4)) in H2. lia.
  - intros H. destruct H as [W name an' nb hd lc r m H1 H3 H4 H5 H2 H6 H7 H8].
    assert (Hc : numbers num_blocks hamming_distance /\ ~ at_least hamming_distance num_blocks).
    { split; [split; left; eexists; [apply H4|apply H5]|].
      rewrite (at_least_whole _ _ _ _ (proj1 H5) (proj1 H4)). lia. }
    apply (compare_ret _ _ tt) in Hc. pose proof (sname_kept _ _ _ H3) as ->.
    apply width_decides in H1. apply name_ret in H3. apply count_decides in H4, H5.
    apply (option_decides _ _ _ bool_decides) in H6. apply (option_decides _ _ _ pair_decides) in H7.
    rewrite H1. cbn [mbind outcome_bind]. rewrite Hc. cbn [mbind outcome_bind]. rewrite H3. cbn [mbind outcome_bind].
    rewrite H4, H5. cbn [mbind outcome_bind]. rewrite H6. cbn [mbind outcome_bind]. rewrite H7. cbn [mbind outcome_bind].
    rewrite H8. done.
Qed.

Lemma snew_raise e : made = Raise e <-> fails e.
Proof.
  unfold sdyn_new. split.
  - intros H. apply bind_raise in H as [H|(W & H1 & H)].
    { apply width_decides in H as [H ->]. by apply sf_size. }
    apply width_decides in H1. assert (Hs : sized hash_size) by (by exists W).
    apply bind_raise in H as [H|(u & H2 & H)].
    { apply compare_raise in H as [[H ->]|(H & H' & ->)]; [by apply sf_number|by apply sf_distance]. }
    apply compare_ret in H2 as [Hn H2].
    apply bind_raise in H as [H|(name & H3 & H)].
    { apply name_raise in H as (v & E & H & ->). by apply sf_name. }
    apply name_ret in H3. assert (Hc : checked hash_size num_blocks hamming_distance an W name (kept an)) by done.
    apply bind_raise in H as [H|(nb & H4 & H)].
    { eapply sf_blocks; [done|by apply count_decides]. }
    apply count_decides in H4.
    apply bind_raise in H as [H|(hd & H5 & H)].
    { eapply sf_max; [done..|by apply count_decides]. }
    apply count_decides in H5.
    apply bind_raise in H as [H|(lc & H6 & H)].
    { eapply sf_lowercase; [done..|by apply (option_decides _ _ _ bool_decides)]. }
    apply (option_decides _ _ _ bool_decides) in H6.
    apply bind_raise in H as [H|(r & H7 & H)].
    { eapply sf_range; [done..|by apply (option_decides _ _ _ pair_decides)]. }
    apply (option_decides _ _ _ pair_decides) in H7.
    apply bind_raise in H as [H|(m & H8 & H)]; [|done].
    apply of_res_raise in H as [H ->]. by eapply sf_panic.
  - assert (Hck : forall W name an', checked hash_size num_blocks hamming_distance an W name an' ->
      sdyn_width hash_size = Ret W /\ sdyn_compare num_blocks hamming_distance = Ret tt /\
      sdyn_name hashable an = Ret name).
    { intros W name an' (H1 & Hn & H2 & H3). pose proof (sname_kept _ _ _ H3) as ->.
      split; [by apply width_decides|]. split; [by apply compare_ret|]. by apply name_ret. }
    intros H. destruct H as [H|[W HW] H|[W HW] Hn H|v [W HW] Hn H -> H'|W name an' e Hc H|W name an' nb e Hc H1 H
      |W name an' nb hd e Hc H1 H2 H|W name an' nb hd lc e Hc H1 H2 H3 H|W name an' nb hd lc r Hc H1 H2 H3 H4 H].
    + assert (E : sdyn_width hash_size = Raise EValueError) by (by apply width_decides). by rewrite E.
    + apply width_decides in HW. rewrite HW. cbn [mbind outcome_bind].
      assert (E : sdyn_compare num_blocks hamming_distance = Raise ETypeError) by (apply compare_raise; by left).
      by rewrite E.
    + apply width_decides in HW. rewrite HW. cbn [mbind outcome_bind].
      assert (E : sdyn_compare num_blocks hamming_distance = Raise EValueError) by (apply compare_raise; by right).
      by rewrite E.
    + apply width_decides in HW. rewrite HW. cbn [mbind outcome_bind].
      assert (E : sdyn_compare num_blocks hamming_distance = Ret tt) by (by apply compare_ret).
      rewrite E. cbn [mbind outcome_bind].
      assert (E' : sdyn_name hashable (AObject v) = Raise (if hashable v then EValueError else ETypeError))
        by (apply name_raise; eauto).
      by rewrite E'.
    + destruct (Hck _ _ _ Hc) as (E1 & E2 & E3). rewrite E1. cbn [mbind outcome_bind]. rewrite E2. cbn [mbind outcome_bind].
      rewrite E3. cbn [mbind outcome_bind]. apply count_decides in H. by rewrite H.
    + destruct (Hck _ _ _ Hc) as (E1 & E2 & E3). rewrite E1. cbn [mbind outcome_bind]. rewrite E2. cbn [mbind outcome_bind].
      rewrite E3. cbn [mbind outcome_bind]. apply count_decides in H1, H. by rewrite H1, H.
    + destruct (Hck _ _ _ Hc) as (E1 & E2 & E3). rewrite E1. cbn [mbind outcome_bind]. rewrite E2. cbn [mbind outcome_bind].
      rewrite E3. cbn [mbind outcome_bind]. apply count_decides in H1, H2. rewrite H1, H2. cbn [mbind outcome_bind].
      apply (option_decides _ _ _ bool_decides) in H. by rewrite H.
    + destruct (Hck _ _ _ Hc) as (E1 & E2 & E3). rewrite E1. cbn [mbind outcome_bind]. rewrite E2. cbn [mbind outcome_bind].
      rewrite E3. cbn [mbind outcome_bind]. apply count_decides in H1, H2. rewrite H1, H2. cbn [mbind outcome_bind].
      apply (option_decides _ _ _ bool_decides) in H3. rewrite H3. cbn [mbind outcome_bind].
      apply (option_decides _ _ _ pair_decides) in H. by rewrite H.
    + destruct (Hck _ _ _ Hc) as (E1 & E2 & E3). rewrite E1. cbn [mbind outcome_bind]. rewrite E2. cbn [mbind outcome_bind].
      rewrite E3. cbn [mbind outcome_bind]. apply count_decides in H1, H2. rewrite H1, H2. cbn [mbind outcome_bind].
      apply (option_decides _ _ _ bool_decides) in H3. rewrite H3. cbn [mbind outcome_bind].
      apply (option_decides _ _ _ pair_decides) in H4. rewrite H4. cbn [mbind outcome_bind]. by rewrite H.
Qed.
End New.

(** ** Queries *)
Section Queries.
Context (lower : text -> text)
        (shingles_str : list N -> nat -> option (list (list N)))
        (shingles_words : list (list N) -> nat -> option (list (list (list N)))).
Context (W : nat) (hash : token -> N).
Context (order : gset Z -> list Z) (sort : list (Z * nat) -> list (Z * nat)) (s1 s2 : list nat).
Notation dquery := (sdyn_query lower shingles_str shingles_words W hash order sort s1 s2).
Notation dbulk := (sdyn_par_bulk_query lower shingles_str shingles_words W hash order sort s1 s2).
Notation cquery := (sclass_query lower shingles_str shingles_words W hash order sort s1 s2).
Notation cbulk := (sclass_par_bulk_query lower shingles_str shingles_words W hash order sort s1 s2).

Lemma ends_bind {A} (f : A -> py_value) (r : res A) : (l ← of_res r; Ret (f l)) = ends f r.
Proof. by destruct r. Qed.

Lemma named_query n v : dquery (SDynIndex n DNamed) v false =
  (d ← to_str v; ends VIds (ps_query lower shingles_str shingles_words W hash order n d)).
Proof. unfold sdyn_query. cbn. destruct (to_str v); [|done]. cbn. apply ends_bind. Qed.
Lemma callable_query n f v : dquery (SDynIndex n (DCallable f)) v false =
  (t ← f v; ts ← to_vec to_str t; ends VIds (ps_query_tokens W hash order n ts)).
Proof.
  unfold sdyn_query. cbn. destruct (f v) as [t|]; [|done]. cbn. destruct (to_vec to_str t); [|done]. cbn. apply ends_bind.
Qed.
Lemma named_bulk n v : dbulk (SDynIndex n DNamed) v false =
  (ds ← to_vec to_str v; ends VIdLists (ps_par_bulk_query lower shingles_str shingles_words W hash order s1 s2 n ds)).
Proof. unfold sdyn_par_bulk_query. cbn. destruct (to_vec to_str v); [|done]. cbn. apply ends_bind. Qed.
Lemma callable_bulk n f v b : dbulk (SDynIndex n (DCallable f)) v b =
  (ds ← py_iter v; ts ← mapM f ds;
   Raise (EAttributeError (if b then "par_bulk_query_tokens_return_distance" else "par_bulk_query_tokens"))).
Proof.
  unfold sdyn_par_bulk_query. cbn [sd_analyzer sd_native]. destruct (py_iter v) as [ds|]; [|done]. cbn [mbind outcome_bind].
  destruct (mapM f ds) as [ts|]; [|done]. cbn [mbind outcome_bind]. by destruct b.
Qed.

Lemma sagrees_docs g f v ds : agrees (Callable g) (DCallable f) -> seq_is doc_is v ds ->
  exists vs ts, py_iter v = Ret vs /\ mapM f vs = Ret ts.
Proof.
  intros Ha (vs & Hv & HF). exists vs.
  assert (Hi : py_iter v = Ret vs) by (destruct Hv as [-> | ->]; done).
  assert (H : exists ts, mapM f vs = Ret ts).
  { clear Hv Hi. induction HF as [|w d vs ds [-> Hd] _ [ts IH]]; [by exists []|].
    destruct (Ha d Hd) as (t & Ht & _). exists (t :: ts). cbn [mapM]. rewrite Ht. cbn [mbind outcome_bind]. by rewrite IH. }
  destruct H as [ts H]. by exists ts.
Qed.

Lemma query_same n an an' v d b : agrees an an' -> doc_is v d ->
  same_outcome (cquery n an d b) (dquery (SDynIndex n an') v b).
Proof.
  intros Ha Hd. destruct b.
  { destruct an as [s|g], an' as [|f]; try done. }
  destruct an as [s|g], an' as [|f]; try done.
  - rewrite named_query. apply S in Hd. rewrite Hd. cbn [mbind outcome_bind sclass_query]. cbn.
    by destruct (ps_query _ _ _ _ _ _ _ _).
  - destruct Hd as [-> Hd]. destruct (Ha d Hd) as (t & Ht & Hs). rewrite callable_query, Ht. cbn [mbind outcome_bind].
    apply SV in Hs. rewrite Hs. cbn. by destruct (ps_query_tokens _ _ _ _ _).
Qed.
Lemma bulk_same n an an' v ds b : agrees an an' -> seq_is doc_is v ds ->
  same_outcome (cbulk n an ds b) (dbulk (SDynIndex n an') v b).
Proof.
  intros Ha Hd. destruct an as [s|g], an' as [|f]; try done.
  - destruct b; [done|]. rewrite named_bulk. apply SV in Hd. rewrite Hd. cbn.
    by destruct (ps_par_bulk_query _ _ _ _ _ _ _ _ _ _).
  - destruct (sagrees_docs g f v ds Ha Hd) as (vs & ts & E1 & E2).
    rewrite callable_bulk, E1. cbn [mbind outcome_bind]. rewrite E2. by destruct b.
Qed.
End Queries.

Lemma sinsert_same an an' id doc i d : agrees an an' -> id_is id i -> doc_is doc d ->
  saccepted an' id doc (sclass_insert an i d).
Proof.
  intros Ha Hi Hd. destruct an as [s|g], an' as [|f]; try done; [by constructor|].
  destruct Hd as [-> Hd]. destruct (Ha d Hd) as (t & Ht & Hs). cbn [sclass_insert]. by econstructor.
Qed.

Lemma snew_same hashable z nb hd an a vlc vr lc r : (forall cs, hashable (VStr cs) = true) ->
  (nb < 2 ^ 64)%Z -> argument_is an a -> opt_is bool_is vlc lc -> opt_is pair_is vr r ->
  match sclass_new z nb hd an lc r with
  | SMade W m => exists an', agrees an an' /\ sdyn_new hashable (VInt z) (VInt nb) (VInt hd) a vlc vr = Ret (W, SDynIndex m an')
  | BadHashSize | BadNumBlocks | BadDistance | BadAnalyzer =>
      sdyn_new hashable (VInt z) (VInt nb) (VInt hd) a vlc vr = Raise EValueError
  | OverflowError => sdyn_new hashable (VInt z) (VInt nb) (VInt hd) a vlc vr = Raise EOverflowError
  | SPanic => sdyn_new hashable (VInt z) (VInt nb) (VInt hd) a vlc vr = Raise EPanic
  end.
Proof.
  intros Hh Hnb Ha Hlc Hr. unfold sclass_new, sdyn_new.
  case_bool_decide as Hz; cbn [negb].
  2:{ assert (E : sdyn_width (VInt z) = Raise EValueError); [|by rewrite E].
      unfold sdyn_width, equals_int. destruct (Z.eqb_spec z (Z.of_N 64)) as [->|]; [exfalso; apply Hz; by left|].
      destruct (Z.eqb_spec z (Z.of_N 128)) as [->|]; [exfalso; apply Hz; by right; left|done]. }
  assert (EW : sdyn_width (VInt z) = Ret (if (z =? 64)%Z then 64 else 128)).
  { apply elem_of_cons in Hz as [->|Hz]; [done|]. by apply elem_of_list_singleton in Hz as ->. }
  rewrite EW. cbn [mbind outcome_bind]. clear EW Hz. generalize (if (z =? 64)%Z then 64 else 128). intros W.
  assert (E0 : ((nb <? 3) && (32 <? nb))%Z = false).
  { destruct (Z.ltb_spec nb 3), (Z.ltb_spec 32 nb); try done. lia. }
  rewrite E0. clear E0.
  unfold sdyn_compare at 1 2 3 4 5 6 7. cbn [to_number number_ge]. change (0 - Z.min 0 0)%Z with 0%Z.
  rewrite !Z.mul_1_r. destruct (Z.leb_spec nb hd) as [Hle|Hlt]; cbn [mbind outcome_bind]; [done|].
  assert (Hn : match an with Callable _ => false | Named s => negb (bool_decide (s ∈ ["word"; "char"]%string)) end = true /\
               sdyn_name hashable a = Raise EValueError \/
               match an with Callable _ => false | Named s => negb (bool_decide (s ∈ ["word"; "char"]%string)) end = false /\
               sdyn_name hashable a = Ret (match an with Callable _ => "word"%string | Named s => s end) /\
               agrees an (kept a)).
  { destruct an as [s|g], a as [f|v]; try done; cbn [argument_is] in Ha; [|by right].
    subst v. cbn [sdyn_name]. rewrite Hh. case_bool_decide as Hs; cbn [negb].
    - right. split; [done|]. split; [|done]. apply elem_of_cons in Hs as [->|Hs]; [done|].
      by apply elem_of_list_singleton in Hs as ->.
    - left. split; [done|]. rewrite !bool_decide_eq_false_2; [done|..]; intros E; apply literal_inj in E; subst s;
        apply Hs; set_solver. }
  destruct Hn as [[-> ->]|(-> & -> & Hag)]; cbn [mbind outcome_bind]; [done|].
  destruct (Z.ltb_spec nb 0) as [Hneg|Hpos]; cbn [orb].
  { assert (E : to_usize (VInt nb) = Raise EOverflowError); [|by rewrite E].
    apply count_decides. left. exists nb. split; [constructor|]. split; [lia|done]. }
  assert (E : to_usize (VInt nb) = Ret (Z.to_nat nb)).
  { apply count_decides. split; rewrite Z2Nat.id by done; [constructor|done]. }
  rewrite E. cbn [mbind outcome_bind]. clear E.
  destruct (Z.ltb_spec hd 0) as [Hneg|Hpos'].
  { assert (E : to_usize (VInt hd) = Raise EOverflowError); [|by rewrite E].
    apply count_decides. left. exists hd. split; [constructor|]. split; [lia|done]. }
  assert (E : to_usize (VInt hd) = Ret (Z.to_nat hd)).
  { apply count_decides. split; rewrite Z2Nat.id by done; [constructor|lia]. }
  rewrite E. cbn [mbind outcome_bind]. clear E.
  apply (option_decides _ _ _ bool_decides) in Hlc. apply (option_decides _ _ _ pair_decides) in Hr.
  rewrite Hlc. cbn [mbind outcome_bind]. rewrite Hr. cbn [mbind outcome_bind].
  destruct (ps_new W _ _ _ lc r) as [m|]; cbn [of_res mbind outcome_bind]; [|done].
  exists (kept a). done.
Qed.
