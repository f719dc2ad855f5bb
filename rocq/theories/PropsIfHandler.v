(** The conditional handler and the step of the parser that uses it: C81-C84.
    Vocabulary: IfSpec.v (items, [branch], [closes]), IfHandlerSpec.v ([heading], [fits],
    [groups_upto], [chosen], [rule]).  [declared_ifs names] is the handler after
    \newif for each of [names] (the last one first); [csname] is arbitrary. *)
From Coq Require Import List NArith ZArith PeanoNat Lia Bool String.
From Verif Require Import PyStr Regex Json TexUtilsModel DelimSpec CommandSpec EtoolModel EtoolSpec FactoryModel IfModel IfSpec IfHandlerModel IfHandlerSpec IfHandlerProofs IfHandlerProofs5 IfHandlerProofs6 IfHandlerCases.
Import ListNotations. Notation length := List.length. Notation concat := List.concat. Open Scope list_scope.

(** * C81 *)
(** \ifbool: what is reported is the same for every value of the boolean, and the
    token that is reported is dropped: neither branch reaches the document. *)
Theorem C81_value_ignored_refuted : forall validate table_cell text name rest a b n, groups_at c_lb c_rb rest [a; b] n -> command_arg "\ifbool" text name rest ->
  (forall d d', snd (etool_handle d text) = snd (etool_handle d' text)) /\
  exists t e, (forall d, etool_handle d text = (d, (Some t, e))) /\ factory_create validate table_cell (VDict t) = Ok VNone.
Proof. exact etool_conditional. Qed.
Print Assumptions C81_value_ignored_refuted.
Example C81_case : groups_at c_lb c_rb (lit "{yes}{no} x") [lit "yes"; lit "no"] 9 /\ command_arg "\ifbool" (lit "\ifbool{draft}{yes}{no} x") (lit "draft") (lit "{yes}{no} x").
Proof. exact etool_case. Qed.

(** * C82 *)
(** \ifthenelse with its three groups; no declared name may be a prefix of thenelse. *)
Theorem C82_ifthenelse_partial : forall csname names c a b rest p, Forall word names -> (forall n q, In n names -> lit "thenelse" <> n ++ q) ->
  groups_upto 3 rest [c; a; b] p ->
  handle csname (declared_ifs names) (lit "\ifthenelse" ++ rest) = Ok (Some (mk_cond (lit "ifthenelse") c a b []), length (lit "\ifthenelse") + p).
Proof. exact ifthenelse_ok. Qed.
Print Assumptions C82_ifthenelse_partial.
(** \@ifclassloaded, \@ifpackageloaded, \@ifundefined; a missing group counts as empty. *)
Theorem C82_atif : forall csname names name c bs rest p, In name at_commands -> groups_upto 3 rest (c :: bs) p ->
  handle csname (declared_ifs names) (c_bs :: lit name ++ rest) = Ok (Some (mk_cond (lit name) c (nth 0 bs []) (nth 1 bs []) []), S (length (lit name)) + p).
Proof. exact atif_ok. Qed.
Print Assumptions C82_atif.
Theorem C82_ifstar : forall csname names a bs rest p, groups_upto 2 rest (a :: bs) p ->
  handle csname (declared_ifs names) (lit "\@ifstar" ++ rest) =
    Ok (Some {| ct_type := lit "conditional-ifstar"; ct_cond := lit "@ifstar"; ct_if := a; ct_else := nth 0 bs []; ct_elsif := [] |}, length (lit "\@ifstar") + p).
Proof. exact ifstar_ok. Qed.
Print Assumptions C82_ifstar.
(** The preprocessor drops both branches of the \@if commands, the parser
    always takes the first. *)
Theorem C82_branch_taken_refuted : forall csname names name c bs rest p, In name at_commands -> groups_upto 3 rest (c :: bs) p ->
  expand_if csname false (declared_ifs names) (c_bs :: lit name ++ rest) = Ok (Some (nth 0 bs [] ++ skipn p rest)) /\
  expand_if csname true (declared_ifs names) (c_bs :: lit name ++ rest) = Ok (Some (skipn p rest)).
Proof. exact atif_pre. Qed.
Print Assumptions C82_branch_taken_refuted.
(** \IfFileExists is read as if it ended in \fi; \ifthenelse with two groups raises. *)
Theorem C82_groups_refuted : handle nocs default_ifs (lit "\IfFileExists{a.tex}{A}{B} rest") = Ok (None, 0) /\
  expand_if nocs false default_ifs (lit "\IfFileExists{a.tex}{A}{B} rest\fi x") = Ok (Some (lit "a.tex}{A}{B} rest x")) /\
  handle nocs default_ifs (lit "\ifthenelse{a}{b} d") = Raise ValueError.
Proof. exact brace_refuted. Qed.
Print Assumptions C82_groups_refuted.
Example C82_case : groups_upto 3 (lit " {x}{a {y}} {b} d") [lit "x"; lit "a {y}"; lit "b"] 15.
Proof. exact brace_case. Qed.
Example C82_taken_case : expand_if nocs true default_ifs (lit "\@ifundefined{foo}{A}{B} C") = Ok (Some (lit " C")) /\ expand_if nocs false default_ifs (lit "\@ifundefined{foo}{A}{B} C") = Ok (Some (lit "A C")).
Proof. exact undefined_case. Qed.

(** * C83 *)
(** \ifNAME...\else...\fi: the name, both branches and the end are reported exactly. *)
Theorem C83_if_else_partial : forall csname names name b0 b1 rest, Forall word names -> plain_name name -> branch b0 -> branch b1 ->
  heading names name (render (b0 ++ Else (lit "\else") :: b1 ++ Close (lit "\fi") :: rest)) -> fits names (b0 ++ Else (lit "\else") :: b1 ++ Close (lit "\fi") :: rest) ->
  exists kind, rule names name kind /\
  handle csname (declared_ifs names) (lit "\if" ++ name ++ render (b0 ++ Else (lit "\else") :: b1 ++ Close (lit "\fi") :: rest)) =
    Ok (Some (mk_cond kind name (chosen name (strip (render b0)) (strip (render b1))) (chosen name (strip (render b1)) (strip (render b0))) []),
        length (lit "\if" ++ name ++ render b0 ++ lit "\else" ++ render b1 ++ lit "\fi")).
Proof. exact handled_else. Qed.
Print Assumptions C83_if_else_partial.
Theorem C83_if_partial : forall csname names name b0 rest, Forall word names -> plain_name name -> branch b0 ->
  heading names name (render (b0 ++ Close (lit "\fi") :: rest)) -> fits names (b0 ++ Close (lit "\fi") :: rest) ->
  exists kind, rule names name kind /\
  handle csname (declared_ifs names) (lit "\if" ++ name ++ render (b0 ++ Close (lit "\fi") :: rest)) =
    Ok (Some (mk_cond kind name (chosen name (strip (render b0)) []) (chosen name [] (strip (render b0))) []), length (lit "\if" ++ name ++ render b0 ++ lit "\fi")).
Proof. exact handled_fi. Qed.
Print Assumptions C83_if_partial.
(** Without its \fi it is left alone. *)
Theorem C83_unclosed_partial : forall csname names name items s, Forall word names -> plain_name name ->
  heading names name (render (items ++ [Txt s])) -> fits names (items ++ [Txt s]) -> s <> [] -> closes 1 items = false ->
  handle csname (declared_ifs names) (lit "\if" ++ name ++ render (items ++ [Txt s])) = Ok (None, 0).
Proof. exact unclosed_left. Qed.
Print Assumptions C83_unclosed_partial.
(** Text that is not blank after the name, a name that begins with x, a command
    that begins with or, if or fi: text is lost, or the conditional is not found. *)
Theorem C83_text_refuted : expand_if nocs false default_ifs (lit "\iftrue(A) x\else B\fi C") = Ok (Some (lit "x C")) /\
  expand_if nocs false default_ifs (lit "\ifxetex A\else B\fi C") = Ok (Some (lit " C")) /\
  expand_if nocs false default_ifs (lit "\iftrue \orcid{0} x\else y\fi C") = Ok (Some (lit " C")) /\
  expand_if nocs false default_ifs (lit "\iftrue $a\iff b$\else y\fi C") = Ok None /\
  expand_if nocs false default_ifs (lit "\iftrue A\ifbool{x}{y}{z}\else B\fi C") = Ok None.
Proof. exact text_lost. Qed.
Print Assumptions C83_text_refuted.
(** A declared name that is a prefix of another, unless declared before it. *)
Theorem C83_prefix_refuted : expand_if nocs false (declared_ifs [lit "a"]) (lit "\ifab X\else Y\fi Z") = Ok (Some (lit "b X Z")) /\
  expand_if nocs false (declared_ifs [lit "ab"; lit "a"]) (lit "\ifab X\else Y\fi Z") = Ok (Some (lit "X Z")).
Proof. exact prefix_name. Qed.
Print Assumptions C83_prefix_refuted.
Example C83_case : Forall word ex_names /\ plain_name (lit "draft") /\ branch ex_b0 /\ branch ex_b1 /\ heading ex_names (lit "draft") (render ex_all) /\ fits ex_names ex_all.
Proof. exact (conj ex_words (conj ex_plain (conj (proj1 ex_branches) (conj (proj2 ex_branches) (conj ex_heading ex_fits))))). Qed.
Example C83_open_case : fits ex_names ([Txt (lit " A"); Else (lit "\else")] ++ [Txt (lit " B")]) /\ heading ex_names (lit "draft") (render ([Txt (lit " A"); Else (lit "\else")] ++ [Txt (lit " B")])).
Proof. exact ex_open_fits. Qed.

(** * C84 *)
(** The text the parser goes on with: the else branch for \iffalse, and the if branch for
    every other name.  So a conditional declared by \newif takes its if branch, whatever
    its value is (it is false after \newif). *)
Theorem C84_branch_taken_refuted : forall csname names name b0 b1 rest, Forall word names -> plain_name name -> branch b0 -> branch b1 ->
  heading names name (render (b0 ++ Else (lit "\else") :: b1 ++ Close (lit "\fi") :: rest)) -> fits names (b0 ++ Else (lit "\else") :: b1 ++ Close (lit "\fi") :: rest) ->
  expand_if csname false (declared_ifs names) (lit "\if" ++ name ++ render b0 ++ lit "\else" ++ render b1 ++ lit "\fi" ++ render rest) =
    Ok (Some (chosen name (strip (render b0)) (strip (render b1)) ++ render rest)).
Proof. exact expanded_else. Qed.
Print Assumptions C84_branch_taken_refuted.
(** \ifundefined and \ifdefined give the same token. *)
Theorem C84_undefined_refuted : exists t, handle nocs default_ifs (lit "\ifundefined{foo}A\else B\fi C") = Ok (Some t, 28) /\ handle nocs default_ifs (lit "\ifdefined{foo}A\else B\fi C") = Ok (Some t, 26).
Proof. exact undefined_same. Qed.
Print Assumptions C84_undefined_refuted.
Example C84_case : expand_if nocs false (declared_ifs ex_names) (lit "\ifdraft A \iftrue B\fi x\else C\fi D") = Ok (Some (lit "A \iftrue B\fi x D")).
Proof. exact ex_run. Qed.
Example C84_false_case : expand_if nocs false default_ifs (lit "\iffalse A\else B\fi C") = Ok (Some (lit "B C")).
Proof. exact ex_false. Qed.
