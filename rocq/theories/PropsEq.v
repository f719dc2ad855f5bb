(** Properties C69 and C70: equations (parser/handlers/equation.py).
    Specification vocabulary: EqSpec.v, DelimSpec.v; sample components in EqCases.v. *)
From Coq Require Import List NArith PeanoNat Bool String Permutation.
From Verif Require Import PyStr DelimSpec RegexLocal EqModel EqSpec EqProofs2 EqProofs3 EqCases EnvHandlerCases.
Import ListNotations.
Notation length := List.length.
Notation concat := List.concat.
Open Scope list_scope.

(** * C69 *)
(** An equation written with $, $$, \(, \[ or an equation environment is
    consumed exactly; the token has its text (labels taken out, content commands
    replaced by numbered placeholders), its labels in order, and the display,
    align and numbered flags of its kind.  Partial: the equation has no
    \foo...\endfoo pairs and no formatting or box commands; the braces of a
    delimited equation are balanced. *)
Theorem C69_equation_partial : forall w process fmt box T search handle fuel order k text body e nb eq t0 ls t1 cs,
  Permutation order EQUATION_ENV -> eq_source order k text body e nb -> strip body <> [] ->
  ((exists n, k = KEnv n) \/ balanced c_lb c_rb (marks (strip body))) ->
  inner_equation k (strip body) eq -> eq = with_labels t0 ls -> Forall good_label ls -> ~ occurs (lit "\label") t0 ->
  let clean := strip (t0 ++ concat (map after_text ls)) in
  plain_ends w clean -> untouched fmt box (process clean) -> commands_read search handle (strip (process clean)) t1 cs ->
  length (process clean) < fuel ->
  exists tok, handle_eq w process fmt box T search handle fuel order text = Some (Some tok, e) /\
    the_token T k nb (with_marks 0 t1 cs) (map label_of ls) (keyed 0 cs) tok.
Proof. exact whole. Qed.
Print Assumptions C69_equation_partial.
(** an equation without text is consumed and dropped *)
Theorem C69_empty : forall w process fmt box T search handle fuel order k text body e nb,
  Permutation order EQUATION_ENV -> eq_source order k text body e nb -> strip body = [] ->
  handle_eq w process fmt box T search handle fuel order text = Some (None, e).
Proof. exact whole_empty. Qed.
Print Assumptions C69_empty.
(** text that starts with none of the four openings is left alone *)
Theorem C69_not_equation : forall w process fmt box T search handle fuel order text,
  (forall o r, In o [lit "\begin"; lit "$"; lit "\["; lit "\("] -> text <> o ++ r) ->
  handle_eq w process fmt box T search handle fuel order text = Some (None, 0).
Proof. exact not_equation. Qed.
Print Assumptions C69_not_equation.
(** the order in which Python iterates over the set of names does not matter *)
Theorem C69_set_order : forall w process fmt box T search handle fuel o1 o2 text,
  Permutation o1 EQUATION_ENV -> Permutation o2 EQUATION_ENV ->
  handle_eq w process fmt box T search handle fuel o1 text = handle_eq w process fmt box T search handle fuel o2 text.
Proof. exact order_free. Qed.
Print Assumptions C69_set_order.
Example C69_case : exists tok, handle_eq aw (fun s => s) no_fmt no_fmt nat ref_search ref_handle 100 EQUATION_ENV case_text = Some (Some tok, 74) /\
  the_token nat (KEnv (lit "align")) false (lit "x  &= ___PLACEHOLDER_0___ \\ y") [lit "eq:1"; lit "eq:{2}"] [(lit "___PLACEHOLDER_0___", 7)] tok.
Proof. exact case_ok. Qed.

(** the full claim fails: an inline equation may not contain a line break *)
Theorem C69_two_lines_refuted : can_handle_eq EQUATION_ENV (lit "\(a" ++ [c_nl] ++ lit "b\) c") = false /\ can_handle_eq EQUATION_ENV (lit "\(a b\) c") = true.
Proof. exact two_lines. Qed.
Print Assumptions C69_two_lines_refuted.
(** an environment nested in one of the same name ends the equation early *)
Theorem C69_nested_refuted : exists tok e,
  handle_eq aw (fun s => s) no_fmt no_fmt nat ref_search ref_handle 100 EQUATION_ENV (lit "\begin{aligned}a\begin{aligned}b\end{aligned}c\end{aligned}") = Some (Some tok, e) /\
  q_content nat tok = lit "a\begin{aligned}b" /\ skipn e (lit "\begin{aligned}a\begin{aligned}b\end{aligned}c\end{aligned}") = lit "c\end{aligned}".
Proof. exact nested_ends_early. Qed.
Print Assumptions C69_nested_refuted.
(** an escaped dollar ends the equation *)
Theorem C69_escaped_dollar_refuted : exists tok e,
  handle_eq aw (fun s => s) no_fmt no_fmt nat ref_search ref_handle 100 EQUATION_ENV (lit "$a\$b$ c") = Some (Some tok, e) /\
  q_content nat tok = lit "a\" /\ skipn e (lit "$a\$b$ c") = lit "b$ c".
Proof. exact escaped_dollar. Qed.
Print Assumptions C69_escaped_dollar_refuted.
(** a display equation with another one in an mbox loses its text *)
Theorem C69_unbalanced_refuted : exists tok e,
  handle_eq aw (fun s => s) no_fmt no_fmt nat ref_search ref_handle 100 EQUATION_ENV (lit "\[x \mbox{\[y\]} z\] t") = Some (Some tok, e) /\
  q_content nat tok = [] /\ skipn e (lit "\[x \mbox{\[y\]} z\] t") = lit "} z\] t".
Proof. exact EqCases.bracket_lost. Qed.
Print Assumptions C69_unbalanced_refuted.

(** * C70: the handler returns on every input: refuted *)
Theorem C70_termination_refuted : forall process fmt box T search handle fuel,
  handle_eq aw process fmt box T search handle fuel EQUATION_ENV (lit "$" ++ lit "\array{c}\arraystretch x\endarray+z" ++ lit "$") = None.
Proof. exact endless_equation. Qed.
Print Assumptions C70_termination_refuted.
(** it does when no \foo...\endfoo pair and no formatting command is there *)
Theorem C70_placeholders_end : forall (T : Type) search handle math, exists r, extract_placeholders T search handle math = Some r.
Proof. exact placeholders_end. Qed.
Print Assumptions C70_placeholders_end.
