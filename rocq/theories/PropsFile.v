(** Property C72: from the bytes of a file to the documents of the string index.

    [Reader ev stuck] is a file that is being read: bytes, and [None] where a read fails; [stuck]
    means that every read at the end fails, as for a directory. [file_lines] are the lines a load
    sees. The files are cut into stretches that end with a line feed or a failed read
    (SpecFile.v); [C72_every_file] says that all files are of that form. *)
From stdpp Require Import base list gmap.
From Coq Require Import NArith Lia.
From Verif Require Import Base Float Text MinHashIndex SpecIndex MinHasher StringIndex SpecString
  StringIndexFacts SpecText FileLines SpecFile FileLinesFacts ExampleIndex PropsString.
Local Open Scope nat_scope.

(** The lines, for any reading [meaning] of UTF-8. *)
Theorem C72_lines meaning ps q :
  is_utf8 meaning -> Forall (fun p => one_line p.1) ps -> one_line q ->
  file_lines (Reader (concat (events <$> ps) ++ (Some <$> q)) false) =
  (line_of meaning <$> ps) ++ (if decide (q = []) then [] else [meaning q]).
Proof.
  intros Hm Hps Hq. rewrite file_exact by done. f_equal.
  - apply list_fmap_ext. intros i p _. by rewrite (line_eq meaning p Hm).
  - by rewrite (meaning_eq meaning q Hm).
Qed.

Theorem C72_utf8 : is_utf8 decode.
Proof. exact decode_iff. Qed.

Theorem C72_every_file ev : exists ps q,
  Forall (fun p => one_line p.1) ps /\ one_line q /\ ev = concat (events <$> ps) ++ (Some <$> q).
Proof. exact (decompose ev). Qed.

(** The loop over the lines ends, with these lines, and never panics. *)
Theorem C72_ends ev n : S (length ev) <= n ->
  lines_upto n (Reader ev false) = (file_lines (Reader ev false), Ended).
Proof.
  intros Hn. destruct (decompose ev) as (ps & q & Hps & Hq & ->). rewrite file_exact by done. apply lines_exact; [done|done|].
  rewrite app_length, fmap_length in Hn. pose proof (events_length ps). destruct q; [right|left]; cbn in *; split || idtac; lia || done.
Qed.

(** Texts written to a file, each with its line end, the last one perhaps without, are the lines
    of the file. *)
Theorem C72_round_trip docs rest :
  Forall fits docs -> Forall scalar rest -> one_line rest ->
  file_lines (Reader (Some <$> file_of docs ++ utf8_text rest) false) =
  (Some <$> docs.*1) ++ (if decide (rest = []) then [] else [Some rest]).
Proof. exact (file_round docs rest). Qed.

(** Loading such a file, with either loader, adds exactly the texts. *)
Theorem C72_load hash draws bh nb bw th ops docs rest load q order :
  Forall fits docs -> Forall scalar rest -> one_line rest ->
  (let file := Some (file_lines (Reader (Some <$> file_of docs ++ utf8_text rest) false)) in
   load = SLoadFile file \/ exists sched1 sched2, load = SLoadFileParallel sched1 sched2 file) ->
  is_order order -> lossless (ops ++ [load]) ->
  let docs' := docs.*1 ++ (if decide (rest = []) then [] else [rest]) in
  (string_step hash bh (string_after hash draws bh nb bw th ops) load).2 = SOk (N.of_nat (length docs')) /\
  exists r, string_query hash bh order (string_after hash draws bh nb bw th (ops ++ [load])) q = Some r /\
    r ≡ₚ filter (fun t => similar hash draws nb bw th q t /\ meets hash draws bh nb bw q t) (added ops ++ docs').
Proof.
  intros Hd Hr H1 Hload Ho Hl docs'.
  assert (Ha : adds load = docs').
  { destruct Hload as [->|(s1 & s2 & ->)]; unfold adds; rewrite ?all_readable_round by done; by apply readable_round. }
  split.
  - rewrite string_outputs. destruct Hload as [->|(s1 & s2 & ->)]; unfold string_spec_out; rewrite ?all_readable_round by done; by rewrite Ha.
  - destruct (C51_exact hash draws bh nb bw th (ops ++ [load]) q order Ho Hl) as (r & Hq & Hp). exists r. split; [done|].
    rewrite Hp. unfold added. rewrite fmap_app, concat_app. cbn. by rewrite app_nil_r, Ha.
Qed.

(** In general the serial loader adds what can be read and skips the rest; the parallel loader
    panics if there is a line it cannot read. *)
Theorem C72_serial hash draws bh nb bw th ops meaning ps q :
  is_utf8 meaning -> Forall (fun p => one_line p.1) ps -> one_line q ->
  (string_step hash bh (string_after hash draws bh nb bw th ops)
     (SLoadFile (Some (file_lines (Reader (concat (events <$> ps) ++ (Some <$> q)) false))))).2 =
  SOk (N.of_nat (length (omap (line_of meaning) ps ++
    (if decide (q = []) then [] else match meaning q with Some t => [t] | None => [] end)))).
Proof. intros Hm Hps Hq. rewrite string_outputs. cbn [string_spec_out adds]. by rewrite (readable_file meaning). Qed.
Theorem C72_parallel hash draws bh nb bw th ops meaning ps q sched1 sched2 :
  is_utf8 meaning -> Forall (fun p => one_line p.1) ps -> one_line q ->
  (string_step hash bh (string_after hash draws bh nb bw th ops)
     (SLoadFileParallel sched1 sched2 (Some (file_lines (Reader (concat (events <$> ps) ++ (Some <$> q)) false))))).2 = SPanic <->
  Exists (fun p => line_of meaning p = None) ps \/ meaning q = None.
Proof.
  intros Hm Hps Hq. rewrite string_outputs. cbn [string_spec_out].
  assert (E : all_readable (Some (file_lines (Reader (concat (events <$> ps) ++ (Some <$> q)) false))) = false <->
    Exists (fun p => line_of meaning p = None) ps \/ meaning q = None).
  { unfold all_readable. rewrite (C72_lines meaning) by done. rewrite bool_decide_eq_false.
    match goal with |- ~ ~ ?P <-> _ => transitivity P; [split; [apply dec_stable|tauto]|] end. rewrite elem_of_app, elem_of_list_fmap, Exists_exists.
    assert (Hn : meaning [] = Some []) by (apply Hm; done).
    split.
    - intros [(p & H1 & H2)|H]; [left; by exists p|right]. case_decide; [by apply elem_of_nil in H|].
      by apply elem_of_list_singleton in H.
    - intros [(p & H1 & H2)|H]; [left; by exists p|right]. rewrite decide_False by congruence.
      by apply elem_of_list_singleton. }
  rewrite <- E. by destruct (all_readable _).
Qed.

(** Where every read at the end fails, the lines never end: the serial loader sees errors for
    ever and does not return; the parallel one panics at the first. *)
Theorem C72_endless meaning ps q n :
  is_utf8 meaning -> Forall (fun p => one_line p.1) ps -> one_line q ->
  lines_upto n (Reader (concat (events <$> ps) ++ (Some <$> q)) true) =
  (take n (line_of meaning <$> ps) ++ replicate (n - length ps) None, Running).
Proof.
  intros Hm Hps Hq. rewrite lines_stuck by done. do 3 f_equal. apply list_fmap_ext. intros i p _. by rewrite (line_eq meaning p Hm).
Qed.

(** "a b", "c", a line that is not UTF-8, an empty line, "é" broken by a failed read after its
    first byte, "d" without a line end. *)
Definition ex_reader : reader := Reader ((Some <$> [97;32;98;13;10; 99;10; 255;10; 10; 195]%N) ++ [None] ++ (Some <$> [169;10;100]%N)) false.
Definition ex_docs : list (list N * bool) := [([97;32;98], true); ([233;8364;128512], false); ([], false)]%N.
Example C72_example :
  file_lines ex_reader = [Some [97;32;98]; Some [99]; None; Some []; None; None; Some [100]]%N /\
  Forall fits ex_docs /\ Forall scalar [100]%N /\
  file_of ex_docs ++ utf8_text [100]%N = [97;32;98;13;10; 195;169;226;130;172;240;159;152;128;10; 10; 100]%N /\
  file_lines (Reader (Some <$> file_of ex_docs ++ utf8_text [100]%N) false) =
    [Some [97;32;98]; Some [233;8364;128512]; Some []; Some [100]]%N /\
  (string_step ex_text_hash bhx (ex_index ex_ops) (SLoadFile (Some (file_lines ex_reader)))).2 = SOk 4 /\
  (string_step ex_text_hash bhx (ex_index ex_ops) (SLoadFileParallel [] [] (Some (file_lines ex_reader)))).2 = SPanic.
Proof.
  split; [by vm_compute|]. split.
  { unfold ex_docs, fits, one_line, scalar. repeat constructor; cbn; try done; try lia; set_solver by lia. }
  split; [constructor; [unfold scalar; lia|done]|]. vm_compute. split_and!; reflexivity.
Qed.
Print Assumptions C72_lines.
Print Assumptions C72_utf8.
Print Assumptions C72_every_file.
Print Assumptions C72_ends.
Print Assumptions C72_round_trip.
Print Assumptions C72_load.
Print Assumptions C72_serial.
Print Assumptions C72_parallel.
Print Assumptions C72_endless.

(** A document that ends with a carriage return, written with a line feed, loses it; a document
    with a line feed becomes two. *)
Theorem C72_lossy_refuted :
  exists d1 d2, Forall scalar d1 /\ Forall scalar d2 /\ one_line d1 /\
    file_lines (Reader (Some <$> utf8_text d1 ++ [10]%N) false) <> [Some d1] /\
    file_lines (Reader (Some <$> utf8_text d2 ++ [10]%N) false) <> [Some d2].
Proof.
  exists [97;13]%N, [97;10;98]%N. split; [repeat constructor; unfold scalar; lia|]. split; [repeat constructor; unfold scalar; lia|].
  split; [unfold one_line; set_solver by lia|]. split; by vm_compute.
Qed.
Print Assumptions C72_lossy_refuted.

(** After a failed read within a line, the rest of that line is loaded as a document of its own. *)
Theorem C72_only_whole_lines_refuted :
  exists p q r t : list N, one_line p /\ one_line q /\
    file_lines (Reader ((Some <$> p) ++ [None] ++ (Some <$> q ++ [10]%N)) false) = [None; Some t] /\
    utf8_text t = q /\ utf8_text r = p ++ q /\ t <> r.
Proof.
  exists [97]%N, [98]%N, [97;98]%N, [98]%N. split; [unfold one_line; set_solver by lia|]. split; [unfold one_line; set_solver by lia|].
  by vm_compute.
Qed.
Print Assumptions C72_only_whole_lines_refuted.
