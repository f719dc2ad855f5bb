(** C96: code (code_block.py): verbatim and lstlisting environments and \verb.  The relation
    [code_source] of CodeSpec.v says which text is code, how far it goes and what it contains. *)
From Coq Require Import List NArith PeanoNat Lia Bool String.
From Verif Require Import PyStr Json DelimSpec StyleSpec CodeModel CodeSpec CodeProofs CodeCases.
Import ListNotations. Notation length := List.length. Open Scope list_scope.

(** Code is taken up to its end, with the text in between, whatever commands or comment signs are in it; *)
Theorem C96_code : forall text kind body rest, code_source text kind body rest -> code_handle text = (Some (code_of kind body), length text - length rest).
Proof. exact code_found. Qed.
Print Assumptions C96_code.
(** nothing else is taken for code; *)
Theorem C96_only_code : forall text v n, code_handle text = (Some v, n) -> exists kind body rest, code_source text kind body rest /\ v = code_of kind body /\ n + length rest = length text.
Proof. exact code_sound. Qed.
Print Assumptions C96_only_code.
Theorem C96_other : forall text, (forall kind body rest, ~ code_source text kind body rest) -> code_handle text = (None, 0).
Proof. exact code_none. Qed.
Print Assumptions C96_other.
(** and the handler says so before. *)
Theorem C96_can_handle : forall text, code_can_handle text = true <-> exists kind body rest, code_source text kind body rest.
Proof. exact code_can. Qed.
Print Assumptions C96_can_handle.
(** The text is not kept as it is: the indentation of its first line is lost, *)
Theorem C96_indent_refuted : code_handle (lit "\begin{verbatim}" ++ [10%N] ++ lit "    if x:" ++ [10%N] ++ lit "    y" ++ [10%N] ++ lit "\end{verbatim}")
  = (Some (VDict [(lit "type", VStr (lit "code")); (lit "content", VStr (lit "if x:" ++ [10%N] ++ lit "    y"))]), 47).
Proof. exact indent_lost. Qed.
Print Assumptions C96_indent_refuted.
(** and code of blanks is empty. *)
Theorem C96_blank_refuted : code_handle (lit "\verb|  |") = (Some (VDict [(lit "type", VStr (lit "code")); (lit "content", VStr []); (lit "display", VStr (lit "inline"))]), 9).
Proof. exact blank_lost. Qed.
Print Assumptions C96_blank_refuted.
(** Options of a listing end at the first closing bracket, also inside a group. *)
Theorem C96_options_refuted : code_handle (lit "\begin{lstlisting}[caption={x[1]}] y\end{lstlisting}")
  = (Some (VDict [(lit "type", VStr (lit "code")); (lit "content", VStr (lit "}] y")); (lit "title", VStr (lit "caption={x[1"))]), 52).
Proof. exact options_cut. Qed.
Print Assumptions C96_options_refuted.
(** The starred environments are not code. *)
Theorem C96_star_refuted : code_handle (lit "\begin{verbatim*}a\end{verbatim*}") = (None, 0).
Proof. exact star_not_code. Qed.
Print Assumptions C96_star_refuted.
Example C96_case_verbatim : code_source (lit "\begin {verbatim} % \end{x} {$ \end {verbatim} z") Block (lit " % \end{x} {$ ") (lit " z").
Proof. exact sample_verbatim. Qed.
Example C96_case_options : code_source (lit "\begin{lstlisting}[language=C] x \end{lstlisting}") (Listing (Some (lit "language=C"))) (lit " x ") [].
Proof. exact sample_options. Qed.
Example C96_case_listing : code_source (lit "\begin{lstlisting}x[1]\end{lstlisting}") (Listing None) (lit "x[1]") [].
Proof. exact sample_listing. Qed.
Example C96_case_verb : code_source (lit "\verb|\a{| b|") Inline (lit "\a{") (lit " b|").
Proof. exact sample_verb. Qed.
Example C96_case_star : code_source (lit "\verb*+x y+.") Inline (lit "x y") (lit ".").
Proof. exact sample_star. Qed.
