(** Properties C73-C77: the preprocessor.  Vocabulary: PreSpec.v; [quiet] in
    PreProofs3.v says that no component finds anything in the document
    (formulas excepted). *)
From Coq Require Import List NArith PeanoNat Lia Bool String.
From Verif Require Import PyStr Regex RegexLocal Json TexUtilsModel DelimSpec TextModel TextSpec TableCases PlaceModel PreModel PreSpec PreProofs PreProofs2 PreProofs3 PreProofs4 PreCases.
Import ListNotations. Notation length := List.length. Open Scope list_scope.

(** * C73: formulas are not rewritten *)
Theorem C73_formulas_kept_partial : forall St math define usepackage format expand if_else fuel s content s' out,
  process_definitions_and_expand St math define usepackage format expand if_else fuel s content = Some (Ok (s', out)) ->
  exists o, rewritten St (round St math define usepackage format expand if_else) s content s' o /\ (~ occurs (lit "MATH_BLOCK") o -> out = o).
Proof. exact process_sound. Qed.
Print Assumptions C73_formulas_kept_partial.
Theorem C73_formulas_kept_converse_partial : forall St math define usepackage format expand if_else s content s' o,
  rewritten St (round St math define usepackage format expand if_else) s content s' o -> ~ occurs (lit "MATH_BLOCK") o ->
  exists fuel, process_definitions_and_expand St math define usepackage format expand if_else fuel s content = Some (Ok (s', o)).
Proof. exact process_complete. Qed.
Print Assumptions C73_formulas_kept_converse_partial.
Theorem C73_rewriting_is_deterministic : forall St math define usepackage format expand if_else s t s1 o1,
  rewritten St (round St math define usepackage format expand if_else) s t s1 o1 ->
  forall s2 o2, rewritten St (round St math define usepackage format expand if_else) s t s2 o2 -> s1 = s2 /\ o1 = o2.
Proof. exact rewritten_fun. Qed.
Print Assumptions C73_rewriting_is_deterministic.
(** Without the condition on the word MATH_BLOCK the text is corrupted. *)
Theorem C73_placeholder_in_text_refuted :
  process_definitions_and_expand unit dollars nothing_defined no_package unformatted unhandled unhandled 100 tt (lit "__MATH_BLOCK_0__ $x$") = Some (Ok (tt, lit "$x$ $x$")).
Proof. exact placeholder_refuted. Qed.
Print Assumptions C73_placeholder_in_text_refuted.
(** The macro \a is expanded outside the formula only. *)
Example C73_case : process_definitions_and_expand unit dollars nothing_defined no_package unformatted expand_a unhandled 100 tt (lit "\a $\a x$ \a ") = Some (Ok (tt, lit "\b $\a x$ \b ")).
Proof. vm_compute. reflexivity. Qed.

(** * C74: verbatim code *)
(** Comment signs, quotes and macros in verbatim code are rewritten. *)
Theorem C74_comment_in_verbatim_refuted : plain_preprocess 100 (lit "\begin{verbatim} a % b" ++ [c_nl] ++ lit "\end{verbatim}") = Some (Ok (tt, lit "\begin{verbatim} a" ++ [c_nl] ++ lit "\end{verbatim}")).
Proof. exact verbatim_comment. Qed.
Print Assumptions C74_comment_in_verbatim_refuted.
Theorem C74_quotes_in_verbatim_refuted : plain_preprocess 100 (lit "\begin{verbatim}x = `ls -l'\end{verbatim}") = Some (Ok (tt, lit "\begin{verbatim}x = 'ls -l'\end{verbatim}")).
Proof. exact verbatim_quotes. Qed.
Print Assumptions C74_quotes_in_verbatim_refuted.
Theorem C74_macro_in_verbatim_refuted :
  preprocess unit dollars nothing_defined no_package unformatted expand_a unhandled loaded 100 tt (lit "\verb|\a | $\a $") = Some (Ok (tt, lit "\verb|\b | $\a $")).
Proof. exact verbatim_macro. Qed.
Print Assumptions C74_macro_in_verbatim_refuted.
(** The last step keeps every verbatim block and respaces the text between. *)
Theorem C74_blocks_kept_partial : forall content, ~ occurs (lit "VERBATIM_BLOCK") content -> ~ occurs (lit "<PARA_BREAK>") content ->
  exists l m o, written l = content /\ map fst (snd l) = map snd (snd (extract_verbatim_blocks content)) /\
    respaced_between l m /\ trimmed_between m o /\ normalize_outside_verbatim content = written o.
Proof. exact step4. Qed.
Print Assumptions C74_blocks_kept_partial.
Theorem C74_first_environment_kept_partial : forall before body rest, ~ In c_bs before -> ~ occurs (lit "\end") body ->
  let content := before ++ (lit "\begin{verbatim}" ++ body ++ lit "\end{verbatim}") ++ rest in
  ~ occurs (lit "VERBATIM_BLOCK") content -> ~ occurs (lit "<PARA_BREAK>") content ->
  forall o, respaced before o ->
  exists rest', normalize_outside_verbatim content = lstrip o ++ (lit "\begin{verbatim}" ++ body ++ lit "\end{verbatim}") ++ rest'.
Proof. exact venv_kept. Qed.
Print Assumptions C74_first_environment_kept_partial.
(** The whole pipeline, for a document in which no component finds anything. *)
Theorem C74_quiet_document_partial : forall St math define usepackage format expand if_else load s content,
  quiet St define usepackage format expand if_else s content -> ~ In c_tick content -> ~ occurs (lit "\addto") content ->
  ~ occurs (lit "MATH_BLOCK") content -> ~ occurs (lit "\documentclass") content -> strip_latex_comments content = content ->
  ~ occurs (lit "VERBATIM_BLOCK") content -> ~ occurs (lit "<PARA_BREAK>") content ->
  exists fuel l m o, preprocess St math define usepackage format expand if_else load fuel s content = Some (Ok (s, written o)) /\
    written l = content /\ map fst (snd l) = map snd (snd (extract_verbatim_blocks content)) /\ respaced_between l m /\ trimmed_between m o.
Proof. exact quiet_verbatim. Qed.
Print Assumptions C74_quiet_document_partial.
Example C74_case : plain_preprocess 100 (lit "a   b $x   y$  \begin{verbatim}p   q\end{verbatim}   ") = Some (Ok (tt, lit "a b $x y$ \begin{verbatim}p   q\end{verbatim}")).
Proof. exact plain_case. Qed.
Example C74_case_quiet : quiet unit nothing_defined no_package unformatted unhandled unhandled tt (lit "a   b $x   y$  \begin{verbatim}p   q\end{verbatim}") /\
  strip_latex_comments (lit "a   b $x   y$  \begin{verbatim}p   q\end{verbatim}") = lit "a   b $x   y$  \begin{verbatim}p   q\end{verbatim}".
Proof. split; [apply plain_quiet|vm_compute; reflexivity]. Qed.

(** * C75: text before the class declaration *)
(** What comes before \documentclass has no effect at all. *)
Theorem C75_before_class_ignored_refuted : forall St math define usepackage format expand if_else load fuel s before before' d name rest,
  class_declaration d name -> ~ occurs (lit "\documentclass") before -> ~ occurs (lit "\documentclass") before' ->
  strip_latex_comments (before ++ d ++ rest) = before ++ d ++ rest -> strip_latex_comments (before' ++ d ++ rest) = before' ++ d ++ rest ->
  preprocess St math define usepackage format expand if_else load fuel s (before ++ d ++ rest) =
  preprocess St math define usepackage format expand if_else load fuel s (before' ++ d ++ rest).
Proof. exact class_prefix_lost. Qed.
Print Assumptions C75_before_class_ignored_refuted.
(** The rest is processed after the class has been loaded. *)
Theorem C75_rest_processed_partial : forall St math define usepackage format expand if_else load fuel s before d name rest,
  class_declaration d name -> ~ occurs (lit "\documentclass") before -> strip_latex_comments (before ++ d ++ rest) = before ++ d ++ rest ->
  preprocess St math define usepackage format expand if_else load fuel s (before ++ d ++ rest) =
  match load s (strip name) with
  | Raise e => Some (Raise e)
  | Ok s1 => match process_definitions_and_expand St math define usepackage format expand if_else fuel s1 rest with
             | None => None | Some (Raise e) => Some (Raise e)
             | Some (Ok (s2, c)) => Some (Ok (s2, normalize_outside_verbatim c))
             end
  end.
Proof. exact class_run. Qed.
Print Assumptions C75_rest_processed_partial.
Example C75_case : class_declaration (lit "\documentclass [a4paper, 12pt] {article}") (lit "article") /\
  plain_preprocess 100 (lit "\newcommand{\x}{y}\documentclass [a4paper, 12pt] {article} text \x") = Some (Ok (tt, lit "text \x")).
Proof.
  split; [|vm_compute; reflexivity]. apply (cd_options [c_sp] (lit "a4paper, 12pt") [c_sp] (lit "article")); try reflexivity; try discriminate.
  all: intros C; cbn in C; repeat (destruct C as [C|C]; [discriminate C|]); exact C.
Qed.

(** * C76: quotation marks *)
Theorem C76_quotes_converted : forall t o, quotes_converted t o -> convert_quotes t = o.
Proof. exact quotes_exact. Qed.
Print Assumptions C76_quotes_converted.
Theorem C76_every_text_covered : forall t, exists o, quotes_converted t o.
Proof. exact quotes_total. Qed.
Print Assumptions C76_every_text_covered.
Theorem C76_only_marks_change : forall t, filter (fun x => negb (quote_char x)) (convert_quotes t) = filter (fun x => negb (quote_char x)) t.
Proof. exact quotes_marks. Qed.
Print Assumptions C76_only_marks_change.
Example C76_case : plain_preprocess 100 (lit "``a `b' c'' `d'") = Some (Ok (tt, lit """a 'b' c"" 'd'")).
Proof. vm_compute. reflexivity. Qed.

(** * C77: preprocessing ends *)
(** False for a macro that expands to itself. *)
Theorem C77_recursive_macro_refuted : forall fuel, preprocess unit dollars nothing_defined no_package unformatted expand_loop unhandled loaded fuel tt (lit "\loop") = None.
Proof. exact loop_never_ends. Qed.
Print Assumptions C77_recursive_macro_refuted.
Theorem C77_quiet_document_ends_partial : forall St math define usepackage format expand if_else load s content,
  quiet St define usepackage format expand if_else s content -> ~ In c_tick content -> ~ occurs (lit "\addto") content ->
  ~ occurs (lit "MATH_BLOCK") content -> ~ occurs (lit "\documentclass") content -> strip_latex_comments content = content ->
  exists fuel, preprocess St math define usepackage format expand if_else load fuel s content = Some (Ok (s, normalize_outside_verbatim content)).
Proof. exact quiet_document. Qed.
Print Assumptions C77_quiet_document_ends_partial.
Example C77_case : quiet unit nothing_defined no_package unformatted unhandled unhandled tt (lit "one $x$ two") /\ plain_preprocess 100 (lit "one $x$ two") = Some (Ok (tt, lit "one $x$ two")).
Proof. split; [apply plain_quiet|vm_compute; reflexivity]. Qed.
