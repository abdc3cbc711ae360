(** The tests of py-gaoya/tests/test_minhash.py as scripts of calls and assertions (C82). *)
From stdpp Require Import base list gmap strings.
From Coq Require Import NArith ZArith Ascii String.
From Verif Require Import Base Float Text StringIndex PyTokenizer PyMinHash.
Local Open Scope string_scope.
Local Open Scope list_scope.

(** The characters of a string of ASCII characters; [str.lower] and [str.upper] of such. *)
Definition chars (s : string) : text := N_of_ascii <$> list_ascii_of_string s.
Definition ascii (t : text) : bool := forallb (fun c => c <? 128)%N t.
Definition ascii_lower (t : text) : text := (fun c => if ((65 <=? c) && (c <=? 90))%N then (c + 32)%N else c) <$> t.
Definition ascii_upper (t : text) : text := (fun c => if ((97 <=? c) && (c <=? 122))%N then (c - 32)%N else c) <$> t.

(** A call that must not raise; [assert index.query(doc) == ans]; [assert set(index.query(doc)) ==
    ans]; [assert index.size() == n]. *)
Inductive line :=
| Call (o : class_op)
| AssertQuery (doc : text) (ans : list Z)
| AssertQuerySet (doc : text) (ans : list Z)
| AssertSize (n : nat).

Section Passes.
Context (lower : text -> text)
        (shingles_str : list N -> nat -> option (list (list N)))
        (shingles_words : list (list N) -> nat -> option (list (list (list N)))).
Context (hash : token -> N) (bh : list N -> N) (order : gset Z -> list Z).
Fixpoint passes (m : class_index) (script : list line) : Prop :=
  match script with
  | [] => True
  | Call o :: script =>
      let r := class_step lower shingles_str shingles_words hash bh m o in r.2 = false /\ passes r.1 script
  | AssertQuery doc ans :: script =>
      class_query lower shingles_str shingles_words hash bh order m doc = Some ans /\ passes m script
  | AssertQuerySet doc ans :: script =>
      (exists l, class_query lower shingles_str shingles_words hash bh order m doc = Some l /\ forall id, id ∈ l <-> id ∈ ans) /\
      passes m script
  | AssertSize n :: script => class_size m = n /\ passes m script
  end.
End Passes.

Definition insert (id : Z) (s : string) : line := Call (CInsertDocument id (chars s)).
Definition remove (id : Z) : line := Call (CRemove id).
Definition query (s : string) (ans : list Z) : line := AssertQuery (chars s) ans.
Definition query_set (s : string) (ans : list Z) : line := AssertQuerySet (chars s) ans.

(** test_minhash.py:6-12. *)
Definition test_64bit : list line :=
  [insert 1 " a b c d e"; query "a b c d e" [1%Z]; query "a b c d f" [1%Z]; query "a b g h f" []].
(** test_minhash.py:15-28. *)
Definition do_test_minhash : list line :=
  [insert 1 "a b c d e f"; insert 2 "1 2 3 4 5 6 8";
   query " a b c d e f" [1%Z]; query " a b c d e g" [1%Z]; query "a b h g f" [];
   query "1 2 3 4 5 6 8" [2%Z]; query "1 2 3 4 5 6 9 10" [2%Z];
   remove 1; query " a b c d e f" []].
(** test_minhash.py:56-72. [str.split(" ")] cuts at every space. *)
Fixpoint split_space (cur : text) (t : text) : list text :=
  match t with
  | [] => [cur]
  | c :: t => if (c =? 32)%N then cur :: split_space [] t else split_space (cur ++ [c]) t
  end.
Definition split_and_uppercase (doc : text) : list text := ascii_upper <$> split_space [] doc.
Definition test_custom_analyzer : list line :=
  [insert 1 "a b c d e f g"; insert 2 "foo bar baz";
   query "A B C D E F G" [1%Z]; query "a b c d e f g" [1%Z]; query "FOO bar baz" [2%Z]; query "FOO bar BAZ" [2%Z]].
(** test_minhash.py:75-102, and the example in minhash.py:65-79. *)
Definition corpus : list string :=
  ["This is the first document.";
   "This document is the second document.";
   "And this is the third document.";
   "Is this the first document?";
   "This not the first nor the second nor the third, but the fourth document"].
Definition test_documents : list line :=
  imap (fun i s => insert (Z.of_nat i) s) corpus ++
  imap (fun i s => query_set s (if (i <? 4)%nat then [0;1;2;3]%Z else [4]%Z)) corpus ++
  [remove 0; remove 4] ++
  imap (fun i s => query_set s (if (i <? 4)%nat then [1;2;3]%Z else [])) corpus.

(** test_minhash.py:105-156. *)
Definition letters_corpus : list string :=
  ["a b c d e f g h k l m n o p q"; "a b c d e f g h k l m n o p"; "a b c d e f g h k l m n o"; "a b c d e f g h k l m n";
   "1 2 3 4 5 6 9 8 9 10"; "1 2 3 4 5 6 9 8 9 10 11 12"; "1 2 3 4 5 6 9 8 9 10 11"; "1 2 3 4 5 6 9 8 9 10 11 12 13"].
(** [len(s1 & s2) / len(s1 | s2)] of the sets of [split(" ")]. *)
Definition jaccard (s1 s2 : string) : f64 :=
  let x : gset text := list_to_set (split_space [] (chars s1)) in
  let y : gset text := list_to_set (split_space [] (chars s2)) in
  f64_div (f64_of_N (N.of_nat (size (x ∩ y)))) (f64_of_N (N.of_nat (size (x ∪ y)))).
(** [abs(true_jaccard - value) < 0.1]. *)
Definition check_jaccard (doc : string) (r : Z * f64) : bool :=
  f64_lt (SFabs (f64_sub (jaccard doc (letters_corpus !!! Z.to_nat r.1)) r.2)) (f64_div (f64_of_N 1) (f64_of_N 10)).
(** The assertions on the answer [result] to a query with [doc]. *)
Definition check_result (doc : string) (result : list (Z * f64)) : Prop :=
  match result with
  | [r0; r1; r2; r3] =>
      f64_gt r0.2 r1.2 = true /\ check_jaccard doc r0 = true /\
      f64_gt r1.2 r2.2 = true /\ check_jaccard doc r1 = true /\
      f64_gt r2.2 r3.2 = true /\ check_jaccard doc r2 = true /\ check_jaccard doc r3 = true
  | _ => False
  end.
