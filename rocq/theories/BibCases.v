From Coq Require Import List NArith ZArith PeanoNat Lia Bool String.
From Verif Require Import PyStr Regex TexUtilsModel DelimSpec DelimProofs DelimFinal KeyvalModel BibModel BibSpec BibProofs BibProofs2 BibProofs3 BuilderModel.
Import ListNotations. Notation length := List.length. Notation concat := List.concat. Open Scope list_scope.

(** the ASCII part of \w *)
Definition ascii_word (x : ch) : bool := in_range 48 57 x || in_range 65 90 x || in_range 97 122 x || N.eqb x 95.
Lemma ascii_word_class : word_class ascii_word.
Proof.
  intros x H.
  assert (forallb (fun y => negb (ascii_word y)) ((9 :: 10 :: 11 :: 12 :: 13 :: 28 :: 29 :: 30 :: 31 :: 32 :: lit "=,@{}\") ++ [c_quote])%N = true) as F by reflexivity.
  rewrite forallb_forall in F.
  assert (forall y, In y ((9 :: 10 :: 11 :: 12 :: 13 :: 28 :: 29 :: 30 :: 31 :: 32 :: lit "=,@{}\") ++ [c_quote])%N -> x <> y) as G.
  { intros y I ->. apply F in I. rewrite H in I. discriminate. }
  split; [|split].
  - assert (x <= 122)%N as L.
    { unfold ascii_word, in_range in H. rewrite !orb_true_iff, !andb_true_iff, !N.leb_le, N.eqb_eq in H. lia. }
    unfold ascii_word, isspace, in_range in *. rewrite !orb_true_iff, !andb_true_iff, !N.leb_le, N.eqb_eq in H.
    rewrite !orb_false_iff, !andb_false_iff, !N.leb_gt, !N.eqb_neq. lia.
  - intros I. apply (G x); [|reflexivity]. apply in_or_app. left. do 10 right. exact I.
  - apply G. apply in_or_app. right. left. reflexivity.
Qed.

Definition parse_ascii (fuel : nat) (s : str) : option (list bibtex_entry) := bibtex_parse ascii_word lower_ascii (fun _ => []) fuel s.
Definition case_text : str := lit "% x @Article {k1, Title = {A {B} c}, year = " ++ [c_quote] ++ lit "2020" ++ [c_quote] ++ lit "}  @book{k2, a={b}}".
Definition nojunk : str := skipn 4 case_text.

(** a bare number is not kept *)
Lemma c50_bare : exists fuel e, parse_ascii fuel (lit "@article{k, year = 2020, title = {T}}") = Some [e] /\ bx_fields e = [(lit "title", lit "T")].
Proof. exists 60. eexists. split; [vm_compute; reflexivity|reflexivity]. Qed.
(** an "@" inside a value makes a second entry *)
Lemma c50_nested : exists fuel e1 e2, parse_ascii fuel (lit "@article{k, note = {see @misc{x, a = {b}}}}") = Some [e1; e2] /\ bx_key e1 = lit "k" /\ bx_key e2 = lit "x".
Proof. exists 60. eexists. eexists. split; [vm_compute; reflexivity|split; reflexivity]. Qed.
(** the field loop by itself can run forever: only the balance of the entry saves it *)
Lemma c28_loop_diverges : forall fuel, fields_loop ascii_word lower_ascii fuel (lit "a={b") 0 [] = None.
Proof.
  induction fuel as [|fuel IH]; [reflexivity|]. cbn [fields_loop].
  replace (re_search (BibTexFieldPattern ascii_word) (skipn 0 (lit "a={b"))) with (Some {| m_start := 0; m_end := 2; m_caps := [(1, (0, 1))] |}) by (vm_compute; reflexivity).
  replace (Nat.ltb 0 (length (lit "a={b"))) with true by (vm_compute; reflexivity). cbv zeta. cbn [m_end].
  replace (startswith (lstrip (skipn (0 + 2) (lit "a={b"))) [c_lb]) with true by (vm_compute; reflexivity).
  replace (extract_nested_content (skipn (0 + 2 + nlead (skipn (0 + 2) (lit "a={b"))) (lit "a={b")) c_lb c_rb) with (@None str, 0) by (vm_compute; reflexivity).
  replace (0 + nsep (skipn 0 (lit "a={b"))) with 0 by (vm_compute; reflexivity). exact IH.
Qed.
Lemma c50_case : bib_file ascii_word nojunk [(lit "Article", lit "k1", [(lit "Title", lit "A {B} c"); (lit "year", lit "2020")]); (lit "book", lit "k2", [(lit "a", lit "b")])].
Proof.
  apply (bf_entry ascii_word [] (lit "Article") (lit " ") (lit "k1") (lit " Title = {A {B} c}, year = " ++ [c_quote] ++ lit "2020" ++ [c_quote]) 
    [(lit "Title", lit "A {B} c"); (lit "year", lit "2020")] (lit "  @book{k2, a={b}}") [(lit "book", lit "k2", [(lit "a", lit "b")])]); try reflexivity.
  - intros [].
  - split; [discriminate|reflexivity].
  - cbn. intuition discriminate.
  - cbn. intuition discriminate.
  - cbn. intuition discriminate.
  - apply c06_balance; [exact delims_curly|reflexivity].
  - apply closes_after_esc. reflexivity.
  - apply (fl_brace ascii_word (lit "Title") (lit " ") (lit " ") (lit "A {B} c") (lit ", ") (lit "year = " ++ [c_quote] ++ lit "2020" ++ [c_quote]) [(lit "year", lit "2020")]); try reflexivity.
    + split; [discriminate|reflexivity].
    + apply c06_balance; [exact delims_curly|reflexivity].
    + apply closes_after_esc. reflexivity.
    + apply (fl_quote ascii_word (lit "year") (lit " ") (lit " ") (lit "2020") [] [] []); try reflexivity.
      * split; [discriminate|reflexivity].
      * cbn. intuition discriminate.
      * constructor.
  - apply (bf_entry ascii_word (lit "  ") (lit "book") [] (lit "k2") (lit " a={b}") [(lit "a", lit "b")] [] []); try reflexivity.
    + cbn. intuition discriminate.
    + split; [discriminate|reflexivity].
    + cbn. intuition discriminate.
    + cbn. intuition discriminate.
    + cbn. intuition discriminate.
    + apply c06_balance; [exact delims_curly|reflexivity].
    + apply closes_after_esc. reflexivity.
    + apply (fl_brace ascii_word (lit "a") [] [] (lit "b") [] [] []); try reflexivity.
      * split; [discriminate|reflexivity].
      * apply c06_balance; [exact delims_curly|reflexivity].
      * apply closes_after_esc. reflexivity.
      * constructor.
    + constructor. intros [].
Qed.
Lemma c50_good : good_entry ascii_word (lit "book") (lit "k2") [(lit "a", lit "b {c}"); (lit "d", [])].
Proof.
  split; [split; [discriminate|reflexivity]|]. split; [cbn; intuition discriminate|]. split; [cbn; intuition discriminate|].
  split; [apply c06_balance; [exact delims_curly|reflexivity]|]. split; [reflexivity|].
  repeat apply Forall_cons; try apply Forall_nil; (split; [split; [discriminate|reflexivity]|]);
    (split; [apply c06_balance; [exact delims_curly|reflexivity]|]); (split; [apply closes_after_esc; reflexivity|]); (split; [reflexivity|]); cbn; intuition discriminate.
Qed.
