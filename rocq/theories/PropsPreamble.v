(** C106: the preamble (tex_preamble.py).  [get_preamble u ualpha ualnum content] is
    LatexPreamble.get_preamble for the content of a file; [u], [ualpha], [ualnum] tell which characters
    beyond ASCII are word characters, letters, alphanumeric.  The specification is in PreambleSpec.v; what
    [strip_latex_comments] does is C09. *)
From Coq Require Import List NArith ZArith PeanoNat Lia Bool String.
From Verif Require Import PyStr DelimSpec CommandSpec CommandCases TexUtilsModel DefModel DefSpec PreambleModel PreambleSpec PreambleProofs2 PreambleProofs4 PreambleCases.
Import ListNotations. Notation length := List.length. Open Scope list_scope.

(** The preamble is read to its end, and without an exception if there is no # in it; *)
Theorem C106_total : forall u ualpha ualnum content, get_preamble u ualpha ualnum content <> Spin /\ (get_preamble u ualpha ualnum content = Raise -> In c_hash content).
Proof. exact get_total. Qed.
Print Assumptions C106_total.
(** the output is what reading the text between \documentclass and \begin{document} from left to right keeps: package
    lines, \makeatletter blocks and definitions, whole, in their order, each once, and nothing else; *)
Theorem C106_reads : forall u ualpha ualnum content out, get_preamble u ualpha ualnum content = Ok out ->
  exists body ps, preamble_text (strip_latex_comments content) body /\ reads u ualpha ualnum body ps /\ out = lines ps.
Proof. exact get_reads. Qed.
Print Assumptions C106_reads.
(** this says what the output is: there is one such text and one such list. *)
Theorem C106_one_text : forall t a b, preamble_text t a -> preamble_text t b -> a = b.
Proof. exact preamble_unique. Qed.
Print Assumptions C106_one_text.
Theorem C106_one_list : forall u ualpha ualnum body ps, reads u ualpha ualnum body ps -> forall qs, reads u ualpha ualnum body qs -> ps = qs.
Proof. exact reads_unique. Qed.
Print Assumptions C106_one_list.
(** A preamble of package lines, declarations and definitions with text without commands between them comes
    out entry by entry, one on a line. *)
Theorem C106_written : forall u ualpha ualnum content body items, preamble_text (strip_latex_comments content) body -> written body items ->
  get_preamble u ualpha ualnum content = Ok (lines items).
Proof. exact get_written. Qed.
Print Assumptions C106_written.
Example C106_case : preamble_text (strip_latex_comments sample) sample_body /\ written sample_body sample_items /\
  lines sample_items = lit "\usepackage[utf8]{inputenc}" ++ [10%N] ++ lit "\newif\ifdraft" ++ [10%N] ++ lit "\gdef\foo#1{a {#1}}" ++ [10%N].
Proof. exact c106_case. Qed.
(** A definition inside the argument of a command that is not kept comes out as if it stood in the preamble itself. *)
Theorem C106_inner_refuted : forall u ualpha ualnum, get_preamble u ualpha ualnum (lit "\documentclass{a}\newenvironment{e}{\def\x{1}}{}") = Ok (lit "\def\x{1}" ++ [10%N]).
Proof. exact inner_def. Qed.
Print Assumptions C106_inner_refuted.
(** Options with brackets inside braces: the package line is lost. *)
Theorem C106_options_refuted : forall u ualpha ualnum, get_preamble u ualpha ualnum (lit "\documentclass{a}\usepackage[x={[1]}]{p}") = Ok [].
Proof. exact options_lost. Qed.
Print Assumptions C106_options_refuted.
(** What stands before \documentclass is lost. *)
Theorem C106_before_refuted : forall u ualpha ualnum, get_preamble u ualpha ualnum (lit "\RequirePackage{fix-cm}\documentclass{a}") = Ok [].
Proof. exact before_lost. Qed.
Print Assumptions C106_before_refuted.
(** \expandafter with a blank is cut off from its definition. *)
Theorem C106_expand_refuted : forall u ualpha ualnum, get_preamble u ualpha ualnum (lit "\expandafter \def\foo{x}") = Ok (lit "\expandafter" ++ [10%N] ++ lit "\def\foo{x}" ++ [10%N]).
Proof. exact expand_cut. Qed.
Print Assumptions C106_expand_refuted.
(** An exception is possible. *)
Theorem C106_raise_refuted : forall u ualpha ualnum, get_preamble u ualpha ualnum (lit "\def\\#1{x}") = Raise.
Proof. exact preamble_raises. Qed.
Print Assumptions C106_raise_refuted.
