(** C93: bibliographies written with \bib (bibdiv_parser.py).  [isword] stands for the
    characters of \w, [lower] for str.lower, [None] for a loop that has not ended.  The
    relations are those of BibdivSpec.v. *)
From Coq Require Import List NArith PeanoNat Bool String.
From Verif Require Import PyStr BuilderModel BibModel BibSpec BibCases BibdivModel BibdivSpec BibdivProofs BibdivProofs3 BibdivCases.
Import ListNotations. Notation length := List.length. Open Scope list_scope.

(** It ends on every text. *)
Theorem C93_terminates : forall isword lower content, exists es, bibdiv_parse isword lower (S (length content)) content = Some es.
Proof. exact bibdiv_terminates. Qed.
Print Assumptions C93_terminates.
(** One entry for each \bib{key}{type}{fields}, in order: the names of the fields in lower
    case, the values without braces, the values of a repeated name joined by and. *)
Theorem C93_entries_partial : forall isword lower, word_class isword -> forall text es, bib_list isword text es ->
  exists fuel, bibdiv_parse isword lower fuel text = Some (map (bib_entry_of lower) es).
Proof. exact bibdiv_exact. Qed.
Print Assumptions C93_entries_partial.
(** In full it is false: groups in groups leave one brace behind, *)
Theorem C93_nested_refuted : keys_fields (parse_div (lit "\bib{k}{article}{title={A {B {C} D}}}")) = Some [(lit "k", [(lit "title", lit "A B {C D}")])].
Proof. exact nested_value. Qed.
Print Assumptions C93_nested_refuted.
(** escaped braces are taken for braces, *)
Theorem C93_escaped_refuted : keys_fields (parse_div (lit "\bib{k}{article}{title={A \{B\}}}")) = Some [(lit "k", [(lit "title", lit "A \B\")])].
Proof. exact escaped_value. Qed.
Print Assumptions C93_escaped_refuted.
(** an entry without fields is lost, *)
Theorem C93_empty_refuted : keys_fields (parse_div (lit "\bib{k}{article}{} \bib{l}{book}{a={b}}")) = Some [(lit "l", [(lit "a", lit "b")])].
Proof. exact empty_entry. Qed.
Print Assumptions C93_empty_refuted.
(** and of a name with a hyphen only the end is kept. *)
Theorem C93_name_refuted : keys_fields (parse_div (lit "\bib{k}{article}{part-title={T}}")) = Some [(lit "k", [(lit "title", lit "T")])].
Proof. exact hyphen_name. Qed.
Print Assumptions C93_name_refuted.
Example C93_case : bib_list ascii_word sample
  [(lit "article", lit "k1", [(lit "author", lit "Zelati, M."); (lit "author", lit "N. Marc"); (lit "Title", lit "On X"); (lit "year", lit "2023")]); (lit "book", lit "k2", [(lit "pages", lit "1--2")])].
Proof. exact sample_list. Qed.
Example C93_case_result : keys_fields (parse_div sample) = Some
  [(lit "k1", [(lit "author", lit "Zelati, M. and N. Marc"); (lit "title", lit "On X"); (lit "year", lit "2023")]); (lit "k2", [(lit "pages", lit "1--2")])].
Proof. exact sample_parsed. Qed.
