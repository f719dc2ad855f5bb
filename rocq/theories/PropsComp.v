(** Properties C108 and C109: compiled bibliographies (the .bbl files of biber).  Vocabulary: CompSpec.v (which uses
    BibSpec.v, BibitemSpec.v [replaced] and DelimSpec.v); [word_class] says of the class of the regex \w what is
    used about it. *)
From Coq Require Import List NArith ZArith PeanoNat Bool String.
From Verif Require BuilderModel.
From Verif Require Import PyStr Regex StyleSpec KeyvalModel BibModel BibSpec CompModel CompSpec CompProofs4 CompCases.
Import ListNotations. Notation length := List.length. Notation concat := List.concat. Open Scope list_scope.

(** C108: every entry of the file is printed as one BibTeX entry, in order, with the fields it has. *)
Theorem C108_entries : forall isword, BibSpec.word_class isword -> (forall x, letter x -> isword x = true) -> forall content cs, compiled_file isword content cs -> Forall no_clash cs ->
  process_compiled_bibtex_to_bibtex isword content = map (fun c => bib_text (c_type c) (c_key c) (arranged (the_fields c))) cs.
Proof. exact c108_file. Qed.
Print Assumptions C108_entries.
(** an author without a given name (an organisation) is left out *)
Theorem C108_corporate_refuted : read_bbl (entry (lit "\name{author}{2}{}{{{hash=A}{family={ACM},}}{{hash=B}{family={Li}, given={Bo},}}}")) = [lit "@book{k," ++ [10%N] ++ lit "  author = {Li, B.}," ++ [10%N] ++ lit "}"].
Proof. exact corporate. Qed.
Print Assumptions C108_corporate_refuted.
(** an author block whose options do not begin with the hash (biber 2.13 and later) is left out *)
Theorem C108_options_refuted : read_bbl (entry (lit "\name{author}{1}{}{{{un=0,uniquepart=base,hash=A}{family={Li}, given={Bo},}}}")) = [lit "@book{k," ++ [10%N] ++ lit "}"].
Proof. exact newer. Qed.
Print Assumptions C108_options_refuted.
(** a field called type (as in a thesis) takes the place of the type of the entry *)
Theorem C108_type_refuted : read_bbl (entry (lit "\field{type}{PhD thesis}")) = [lit "@PhD thesis{k," ++ [10%N] ++ lit "}"].
Proof. exact typed. Qed.
Print Assumptions C108_type_refuted.
(** a given name that begins with a group: the text printed is not balanced *)
Theorem C108_initial_refuted : read_bbl (entry (lit "\name{author}{1}{}{{{hash=A}{family={Li}, given={{\'E}ric},}}}")) = [lit "@book{k," ++ [10%N] ++ lit "  author = {Li, {.}," ++ [10%N] ++ lit "}"].
Proof. exact accented. Qed.
Print Assumptions C108_initial_refuted.
(** a list of names with two groups instead of three: the whole entry is left out *)
Theorem C108_names_refuted : read_bbl (entry (lit "\name{author}{1}{{{hash=A}{family={Li}, given={Bo},}}}") ++ entry (lit "\field{year}{2020}")) = [lit "@book{k," ++ [10%N] ++ lit "  year = {2020}," ++ [10%N] ++ lit "}"].
Proof. exact left_out. Qed.
Print Assumptions C108_names_refuted.
Example C108_case : compiled_file aw sample_file [sample] /\ Forall no_clash [sample] /\ read_bbl sample_file = [printed_sample].
Proof. split; [exact sample_file_ok|split; [constructor; [exact sample_no_clash|constructor]|exact (proj1 sample_out)]]. Qed.

(** C109: the references read from a compiled bibliography are those of its entries. *)
Theorem C109_references : forall isword, BibSpec.word_class isword -> (forall x, letter x -> isword x = true) -> forall lower content cs,
  compiled_file isword content cs -> cs <> [] -> Forall no_clash cs -> Forall (readable isword) cs ->
  exists fuel es, bibtex_parse isword lower (process_compiled_bibtex_to_bibtex isword) fuel content = Some es /\
    map (fun e => (bx_type e, bx_key e, bx_fields e)) es = map (reference lower) cs.
Proof. exact c109_read. Qed.
Print Assumptions C109_references.
(** a field whose name is not one word is renamed *)
Theorem C109_name_refuted : exists fuel e, bibtex_parse aw BuilderModel.lower_ascii read_bbl fuel (entry (lit "\field{part-title}{T}")) = Some [e] /\ bx_fields e = [(lit "title", lit "T")].
Proof. exact bad_name. Qed.
Print Assumptions C109_name_refuted.
Example C109_case : compiled_file aw sample_file [sample] /\ Forall no_clash [sample] /\ Forall (readable aw) [sample] /\ reference BuilderModel.lower_ascii sample =
  (lit "article", lit "lang23", [(lit "author", lit "Medeiros, L. and Li, B."); (lit "title", lit "Lang"); (lit "year", lit "2023"); (lit "eprint", lit "2301.1"); (lit "journal", lit "J {of} X"); (lit "pages", lit "1--9")]).
Proof. split; [exact sample_file_ok|split; [constructor; [exact sample_no_clash|constructor]|split; [constructor; [exact sample_readable|constructor]|vm_compute; reflexivity]]]. Qed.
