(** Properties C28 and C50 (BibTeX).  Vocabulary: BibSpec.v and [good_entry],
    [entry_of] (BibProofs2.v, BibProofs3.v).  [isword] (the regex class \w) and
    [lower] (str.lower) are arbitrary functions; [convert] is the conversion of
    compiled bibliographies. *)
From Coq Require Import List NArith ZArith PeanoNat Lia Bool String.
From Verif Require Import PyStr Regex TexUtilsModel DelimSpec KeyvalModel BibModel BibSpec BibProofs BibProofs2 BibProofs3 BibCases BuilderModel.
Import ListNotations. Notation length := List.length. Notation concat := List.concat. Open Scope list_scope.

(** C28: for every content there is a number of rounds after which all field
    loops have ended. *)
Theorem C28_terminates : forall isword lower convert content, exists fuel es, bibtex_parse isword lower convert fuel content = Some es.
Proof. exact c28_terminates. Qed.
Print Assumptions C28_terminates.
(** the loop alone does not terminate on unbalanced text *)
Example C28_loop_alone : forall fuel, fields_loop ascii_word lower_ascii fuel (lit "a={b") 0 [] = None.
Proof. exact c28_loop_diverges. Qed.
Example C28_case : exists e1 e2, parse_ascii 100 case_text = Some [e1; e2] /\ bx_key e1 = lit "k1" /\ bx_key e2 = lit "k2".
Proof. eexists. eexists. split; [vm_compute; reflexivity|split; reflexivity]. Qed.

(** C50: the entries of a well-formed file, in order, with their fields. *)
Theorem C50_entries_partial : forall isword lower, word_class isword -> forall convert content es,
  bib_file isword content es -> is_compiled_bibtex content = false ->
  exists fuel, bibtex_parse isword lower convert fuel content = Some (map (entry_of lower) es).
Proof. exact c50_entries. Qed.
Print Assumptions C50_entries_partial.
(** an entry that was written by the parser is read back unchanged *)
Theorem C50_roundtrip : forall isword lower, word_class isword -> forall convert ty key fs,
  good_entry isword ty key fs -> lower ty = ty -> NoDup (map fst fs) -> Forall (fun kv => lower (fst kv) = fst kv) fs ->
  is_compiled_bibtex (convert_fields ty key fs) = false ->
  exists fuel, bibtex_parse isword lower convert fuel (convert_fields ty key fs) =
    Some [{| bx_type := ty; bx_key := key; bx_fields := fs; bx_content := convert_fields ty key fs |}].
Proof. exact c50_roundtrip. Qed.
Print Assumptions C50_roundtrip.
(** False for values without braces or quotes, and when a value contains an entry. *)
Theorem C50_bare_value_refuted : exists fuel e, parse_ascii fuel (lit "@article{k, year = 2020, title = {T}}") = Some [e] /\ bx_fields e = [(lit "title", lit "T")].
Proof. exact c50_bare. Qed.
Theorem C50_nested_entry_refuted : exists fuel e1 e2,
  parse_ascii fuel (lit "@article{k, note = {see @misc{x, a = {b}}}}") = Some [e1; e2] /\ bx_key e1 = lit "k" /\ bx_key e2 = lit "x".
Proof. exact c50_nested. Qed.
Example C50_words : word_class ascii_word.
Proof. exact ascii_word_class. Qed.
Example C50_case : bib_file ascii_word nojunk
  [(lit "Article", lit "k1", [(lit "Title", lit "A {B} c"); (lit "year", lit "2020")]); (lit "book", lit "k2", [(lit "a", lit "b")])] /\
  is_compiled_bibtex nojunk = false.
Proof. split; [exact c50_case|reflexivity]. Qed.
Example C50_good : good_entry ascii_word (lit "book") (lit "k2") [(lit "a", lit "b {c}"); (lit "d", [])] /\
  is_compiled_bibtex (convert_fields (lit "book") (lit "k2") [(lit "a", lit "b {c}"); (lit "d", [])]) = false.
Proof. split; [exact c50_good|reflexivity]. Qed.
