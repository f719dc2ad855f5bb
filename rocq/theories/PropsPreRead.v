(** Property C88: the preprocessor reads the document from left to right.
    Vocabulary: PreRead.v ([preprocessed]), over arbitrary components. *)
From Coq Require Import List NArith PeanoNat Lia Bool String.
From Verif Require Import PyStr Regex RegexLocal Json TexUtilsModel PreModel PreSpec PreRead PreReadProofs PreReadCases.
From Verif Require PreCases.
Import ListNotations. Notation length := List.length. Open Scope list_scope.

(** Definitions and package declarations are removed, macros, formatting commands and
    conditionals are replaced by what their component says and the result is read
    again, formulas and everything else stay.  Not covered: \addto (refuted below)
    and output that contains the word MATH_BLOCK (C73). *)
Theorem C88_preprocessed_partial : forall St math define usepackage format expand if_else s d s' o,
  preprocessed St math define usepackage format expand if_else s d s' o -> ~ occurs (lit "MATH_BLOCK") o ->
  exists fuel, process_definitions_and_expand St math define usepackage format expand if_else fuel s d = Some (Ok (s', o)).
Proof. exact preprocessed_run. Qed.
Print Assumptions C88_preprocessed_partial.
Theorem C88_unique : forall St math define usepackage format expand if_else s d s1 o1,
  preprocessed St math define usepackage format expand if_else s d s1 o1 -> forall s2 o2, preprocessed St math define usepackage format expand if_else s d s2 o2 -> s1 = s2 /\ o1 = o2.
Proof. exact preprocessed_fun. Qed.
Print Assumptions C88_unique.
(** The whole pipeline: the class file is loaded first, the spaces are normalised last (C12, C74). *)
Theorem C88_document_partial : forall St math define usepackage format expand if_else load s a d name rest s1 s' o,
  class_declaration d name -> ~ occurs (lit "\documentclass") a -> strip_latex_comments (a ++ d ++ rest) = a ++ d ++ rest -> load s (strip name) = Ok s1 ->
  preprocessed St math define usepackage format expand if_else s1 rest s' o -> ~ occurs (lit "MATH_BLOCK") o ->
  exists fuel, preprocess St math define usepackage format expand if_else load fuel s (a ++ d ++ rest) = Some (Ok (s', normalize_outside_verbatim o)).
Proof. exact preprocessed_document. Qed.
Print Assumptions C88_document_partial.
(** Only the header of \addto\extras{...} should be dropped, but the definition in its argument is lost too. *)
Theorem C88_addto_refuted :
  process_definitions_and_expand (option str) PreCases.dollars define_a no_package PreCases.unformatted use_a unhandled 50 None (lit "\addto\extras{\def\a{x}} \a ") = Some (Ok (None, lit "{x}} \a ")).
Proof. exact addto_lost. Qed.
Print Assumptions C88_addto_refuted.
(** \a is used before and after its definition, and in a formula. *)
Example C88_case :
  preprocessed (option str) PreCases.dollars define_a no_package PreCases.unformatted use_a unhandled None
    (lit "p \a q \def\a{x}r \a $\a $ s \a ") (Some (lit "x")) (lit "p \a q r x $\a $ s x ") /\
  exists fuel, process_definitions_and_expand (option str) PreCases.dollars define_a no_package PreCases.unformatted use_a unhandled fuel None (lit "p \a q \def\a{x}r \a $\a $ s \a ") =
    Some (Ok (Some (lit "x"), lit "p \a q r x $\a $ s x ")).
Proof. split; [exact def_case|exact def_run]. Qed.
