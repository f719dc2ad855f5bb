(** C94-C95: the bibliography parser and its files (bib_parser.py).  [None]: an exception, or
    a field loop that has not ended.  The relations are those of BibParserSpec.v. *)
From Coq Require Import List NArith PeanoNat Bool String.
From Verif Require BibProofs2 BibdivSpec BibCases BibitemSpec BibitemCases BibdivCases.
From Verif Require Import ExtractModel PyStr Regex RegexLocal BuilderModel EnvHandlerCases BibModel BibSpec BibdivSpec BibParserModel BibParserSpec BibParserProofs BibParserCases.
Import ListNotations. Notation length := List.length. Open Scope list_scope.

(** A text with a bibdiv environment is read as \bib entries, whatever else it contains; *)
Theorem C94_div : forall isword lower convert content es, word_class isword -> bibdiv_text (preprocess content) -> bib_list isword (preprocess content) es ->
  exists fuel, bib_parse isword lower convert fuel content = Some (map (fun e => ETex (bib_entry_of lower e)) es).
Proof. exact div_parsed. Qed.
Print Assumptions C94_div.
(** one with @type{ as BibTeX; *)
Theorem C94_tex : forall isword lower convert content es, word_class isword -> ~ bibdiv_text (preprocess content) -> ~ compiled_text (preprocess content) -> at_entry isword (preprocess content) -> bib_file isword (preprocess content) es ->
  exists fuel, bib_parse isword lower convert fuel content = Some (map (fun e => ETex (BibProofs2.entry_of lower e)) es).
Proof. exact tex_parsed. Qed.
Print Assumptions C94_tex.
(** otherwise its \bibitem entries are the result; *)
Theorem C94_items : forall isword lower convert content pre T items out, BibitemSpec.word_class isword -> ~ bibdiv_text (preprocess content) -> ~ at_entry isword (preprocess content) -> ~ compiled_text (preprocess content) ->
  BibitemSpec.searched isword (preprocess content) (pre ++ T) -> ~ occurs BibitemSpec.item_word pre -> BibitemSpec.items_text items T -> BibitemSpec.entries_of isword None items out ->
  forall fuel, bib_parse isword lower convert fuel content = Some (map EItem out).
Proof. exact items_parsed. Qed.
Print Assumptions C94_items.
(** and a text with none of these has no entries. *)
Theorem C94_none : forall isword lower convert content fuel, ~ bibdiv_text (preprocess content) -> ~ at_entry isword (preprocess content) -> ~ compiled_text (preprocess content) ->
  (forall pre name inner post, ~ BibitemSpec.bibliography_env isword (preprocess content) pre name inner post) -> ~ occurs (lit "\bibitem") (preprocess content) ->
  bib_parse isword lower convert fuel content = Some [].
Proof. exact none_parsed. Qed.
Print Assumptions C94_none.
(** The items of a bibliography are all lost when one of them has a word behind an at sign and then a group. *)
Theorem C94_at_refuted : keys (parse_bib (lit "\begin{thebibliography}{9} \bibitem{a} A, smith@mit {\em J}. \bibitem{b} B. \end{thebibliography}")) = Some [].
Proof. exact at_word_lost. Qed.
Print Assumptions C94_at_refuted.
Example C94_at_control : keys (parse_bib (lit "\begin{thebibliography}{9} \bibitem{a} A, smith@mit.edu {\em J}. \bibitem{b} B. \end{thebibliography}")) = Some [lit "a"; lit "b"].
Proof. exact at_word_kept. Qed.
(** A BibTeX entry with a percent sign in a value is lost. *)
Theorem C94_percent_refuted : keys (parse_bib (lit "@misc{a, url={http://x/a%20b}}" ++ [10%N] ++ lit "@misc{c, t={d}}")) = Some [lit "c"].
Proof. exact percent_lost. Qed.
Print Assumptions C94_percent_refuted.
Example C94_percent_control : keys (parse_bib (lit "@misc{a, url={http://x/a_20b}}" ++ [10%N] ++ lit "@misc{c, t={d}}")) = Some [lit "a"; lit "c"].
Proof. exact percent_kept. Qed.
Example C94_case_div : bibdiv_text (preprocess BibdivCases.sample) /\ preprocess BibdivCases.sample = BibdivCases.sample.
Proof. exact (conj bibdiv_sample sample_same). Qed.
Example C94_case_items : ~ bibdiv_text (preprocess BibitemCases.sample) /\ ~ at_entry aw (preprocess BibitemCases.sample) /\ ~ compiled_text (preprocess BibitemCases.sample) /\ preprocess BibitemCases.sample = BibitemCases.sample.
Proof. exact item_hyps. Qed.
Example C94_case_tex : ~ bibdiv_text (preprocess tex_sample) /\ at_entry aw (preprocess tex_sample) /\ ~ compiled_text (preprocess tex_sample) /\ preprocess tex_sample = tex_sample.
Proof. exact tex_hyps. Qed.

(** The file of the given name is read, as it is or with .bbl or .bib behind it; *)
Theorem C95_named : forall files listdir A (parse : str -> option (list A)) path c, named files path c -> c <> [] -> parse_file files listdir parse path = parse c.
Proof. exact file_named. Qed.
Print Assumptions C95_named.
(** if there is none, main.bbl in the same directory; *)
Theorem C95_main : forall files listdir A (parse : str -> option (list A)) path d c, nothing_named files path -> in_directory path d -> files (in_dir d (lit "main.bbl")) = Some c -> c <> [] ->
  parse_file files listdir parse path = parse c.
Proof. exact file_main. Qed.
Print Assumptions C95_main.
(** then the first file there with the extension .bbl; *)
Theorem C95_first : forall files listdir A (parse : str -> option (list A)) path d l1 f l2 c, nothing_named files path -> in_directory path d -> files (in_dir d (lit "main.bbl")) = None ->
  listdir d = Some (l1 ++ f :: l2) -> (forall g, In g l1 -> ~ has_ext (lit ".bbl") g) -> has_ext (lit ".bbl") f -> ~ In c_slash f -> files (in_dir d f) = Some c -> c <> [] -> parse_file files listdir parse path = parse c.
Proof. exact file_first. Qed.
Print Assumptions C95_first.
(** and if there is no such file either the bibliography is empty. *)
Theorem C95_missing : forall files listdir A (parse : str -> option (list A)) path d names, nothing_named files path -> in_directory path d -> files (in_dir d (lit "main.bbl")) = None ->
  listdir d = Some names -> (forall g, In g names -> ~ has_ext (lit ".bbl") g) -> parse_file files listdir parse path = Some [].
Proof. exact file_missing. Qed.
Print Assumptions C95_missing.
(** A name without a directory that is not there raises instead: the directory listed is the empty path. *)
Theorem C95_bare_refuted : forall files listdir A (parse : str -> option (list A)) path, nothing_named files path -> ~ In c_slash path -> files (lit "main.bbl") = None -> listdir [] = None ->
  parse_file files listdir parse path = None.
Proof. exact file_bare. Qed.
Print Assumptions C95_bare_refuted.
(** A file with another extension is not read although it is there. *)
Theorem C95_ext_refuted : disk2 (lit "d/refs.txt") = Some (lit "R") /\ parse_file disk2 dirs2 echo (lit "d/refs.txt") = Some [].
Proof. exact (conj eq_refl other_ext). Qed.
Print Assumptions C95_ext_refuted.
Example C95_case_named : named disk (lit "d/refs") (lit "R") /\ parse_file disk dirs echo (lit "d/refs") = Some [lit "R"].
Proof. exact (conj named_sample eq_refl). Qed.
Example C95_case_main : nothing_named disk (lit "d/other") /\ in_directory (lit "d/other") (lit "d") /\ disk (in_dir (lit "d") (lit "main.bbl")) = Some (lit "M").
Proof. exact (conj nothing_d (conj in_d eq_refl)). Qed.
Example C95_case_first : nothing_named disk (lit "e/other") /\ in_directory (lit "e/other") (lit "e") /\ disk (in_dir (lit "e") (lit "main.bbl")) = None /\ dirs (lit "e") = Some ([lit "a.tex"] ++ lit "x.bbl" :: [lit "y.bbl"]) /\
  (forall g, In g [lit "a.tex"] -> ~ has_ext (lit ".bbl") g) /\ has_ext (lit ".bbl") (lit "x.bbl") /\ disk (in_dir (lit "e") (lit "x.bbl")) = Some (lit "X").
Proof. exact (conj nothing_e (conj in_e (conj eq_refl (conj eq_refl (conj (proj1 e_names) (conj (proj2 e_names) eq_refl)))))). Qed.
Example C95_case_bare : parse_file disk dirs echo (lit "other") = None.
Proof. exact bare_raises. Qed.
