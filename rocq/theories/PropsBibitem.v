(** C91-C92: bibliographies made of \bibitem (bibitem_parser.py).  [w] stands for the
    characters of \w, [None] for the exception re.error.  The relations are those of BibitemSpec.v. *)
From Coq Require Import List NArith PeanoNat Bool String.
From Verif Require Import PyStr Regex RegexLocal StyleSpec EnvHandlerCases BibitemModel BibitemSpec BibitemProofs3 BibitemCases.
Import ListNotations. Notation length := List.length. Open Scope list_scope.

(** One entry for each item that has a text, in order, from the first environment whose name
    ends in bibliography or from the whole text. *)
Theorem C91_entries_partial : forall w, word_class w -> forall text pre T items out,
  searched w text (pre ++ T) -> ~ occurs item_word pre -> items_text items T -> entries_of w None items out -> parse_bibitems w text = Some out.
Proof. exact bibitems_exact. Qed.
Print Assumptions C91_entries_partial.
(** In full it is false: an item ends at every command that starts with the letters of \bibitem. *)
Theorem C91_word_refuted : parse_bibitems aw (lit "\bibitem{k} a \bibitemNoStop b") = Some [{| bi_key := lit "k"; bi_content := lit "a"; bi_label := None |}].
Proof. exact word_inside. Qed.
Print Assumptions C91_word_refuted.
Example C91_case_hyps : word_class aw /\ searched aw sample (lit "{9} " ++ lit "\bibitem[K84]{knuth} Knuth, \newblock TeX. \bibitem{k2} \bysame, MF. ") /\
  ~ occurs item_word (lit "{9} ") /\ items_text [s1; s2] (lit "\bibitem[K84]{knuth} Knuth, \newblock TeX. \bibitem{k2} \bysame, MF. ").
Proof. exact (conj aw_class (conj sample_searched (conj sample_no_item sample_items))). Qed.
Example C91_case : entries_of aw None [s1; s2]
  [{| bi_key := lit "knuth"; bi_content := lit "Knuth,  TeX."; bi_label := Some (lit "K84") |}; {| bi_key := lit "k2"; bi_content := lit "Knuth, MF."; bi_label := None |}].
Proof. exact sample_entries. Qed.
Example C91_case_result : parse_bibitems aw sample = Some
  [{| bi_key := lit "knuth"; bi_content := lit "Knuth,  TeX."; bi_label := Some (lit "K84") |}; {| bi_key := lit "k2"; bi_content := lit "Knuth, MF."; bi_label := None |}].
Proof. vm_compute. reflexivity. Qed.
Example C91_case_empty : parse_bibitems aw (lit "\bibitem{k1} \bibitem{k2} B") = Some [{| bi_key := lit "k2"; bi_content := lit "B"; bi_label := None |}].
Proof. exact empty_dropped. Qed.

(** A text without \bysame never raises, whatever it is. *)
Theorem C92_total_partial : forall w, word_class w -> forall text, ~ occurs (lit "\bysame") text -> parse_bibitems w text <> None.
Proof. exact bibitems_total. Qed.
Print Assumptions C92_total_partial.
(** With \bysame it can: a backslash in the author before is read as an escape sequence, *)
Theorem C92_raises_refuted : parse_bibitems aw (lit "\bibitem{k1} P. Erd\H{o}s, T \bibitem{k2} \bysame, U") = None.
Proof. exact bysame_raises. Qed.
Print Assumptions C92_raises_refuted.
(** or turned into another character. *)
Theorem C92_escape_refuted : option_map (map bi_content) (parse_bibitems aw (lit "\bibitem{k1} \textsc{A}, T \bibitem{k2} \bysame, U"))
  = Some [lit "\textsc{A}, T"; [9%N] ++ lit "extsc{A}, U"].
Proof. exact bysame_tab. Qed.
Print Assumptions C92_escape_refuted.
(** Only the text before the first comma is the author. *)
Theorem C92_authors_refuted : option_map (map bi_content) (parse_bibitems aw (lit "\bibitem{k1} A, B and C, T. \bibitem{k2} \bysame, U."))
  = Some [lit "A, B and C, T."; lit "A, U."].
Proof. exact two_authors. Qed.
Print Assumptions C92_authors_refuted.
