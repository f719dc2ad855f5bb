(** Properties C54-C60, about CommandModel.v.  isalpha and isalnum are the str methods on one character,
    ifs and ew two helpers of the code that are left arbitrary (see the model). *)
From Coq Require Import List NArith ZArith PeanoNat Lia Bool String.
From Verif Require Import PyStr Regex DelimSpec SubstSpec CommandModel CommandSpec CommandProofs CommandProofs3 CommandProofs4 CommandProofs5 CommandProofs6 CommandProofs7 CommandProofs8 CommandCases.
Import ListNotations. Notation length := List.length. Notation concat := List.concat. Open Scope list_scope.

(** C54: \newcommand and its relatives are read as written. *)
Theorem C54_newcommand_read_partial : forall d rest, well_written d ->
  handle_definition (macro_text d ++ rest) =
    (Some (TNew (mc_name d) (mc_body d) (arity d) (default_values d) (usage_pattern (mc_name d)) (math_only d)), length (macro_text d)).
Proof. exact newcommand_definition. Qed.
Print Assumptions C54_newcommand_read_partial.
(** false for a default value that runs over a line end: the value is lost *)
Theorem C54_default_newline_refuted : exists body nargs pat, fst (handle_definition (lit "\newcommand{\x}[1][a" ++ [c_nl] ++ lit "b]{<#1>}")) = Some (TNew (lit "x") body nargs [] pat false).
Proof. exact c54_refuted. Qed.
Print Assumptions C54_default_newline_refuted.
(** false for a default that has brackets inside braces: the definition is not recognised *)
Theorem C54_default_bracket_refuted : fst (handle_definition (lit "\newcommand{\x}[1][{[a]}]{<#1>}")) = None.
Proof. exact c54_bracket. Qed.
Print Assumptions C54_default_bracket_refuted.
Example C54_case : well_written d_foo /\ macro_text d_foo = lit "\newcommand*{\foo} [2][x]{a#1{b}#2}" /\ arity d_foo = 2 /\ default_values d_foo = [lit "x"].
Proof. exact d_foo_ok. Qed.

(** C55 and C56: after any sequence of definitions with \newcommand etc. (newest first in [h]), a call gives the body
    of the latest definition with the arguments of the call and consumes exactly the command word and its arguments. *)
Theorem C55_call_partial : forall isalpha isalnum ifs ew h st name r, history isalpha isalnum ifs ew h st -> word name -> word_end r ->
  match latest name h with
  | None => handle_command isalpha st ([c_bs] ++ name ++ r) = None
  | Some d =>
      if math_only d then handle_command isalpha st ([c_bs] ++ name ++ r) = None
      else forall args n, call_args d r args n -> (forall ps, reads_as (mc_body d) ps -> no_zero ps) ->
        exists out, (arity d = 0 -> out = mc_body d) /\ (arity d <> 0 -> length args = arity d /\ substituted isalpha (mc_body d) args out) /\
          (out <> [c_bs] ++ name -> handle_command isalpha st ([c_bs] ++ name ++ r) = Some (out, S (length name) + n)) /\
          (out = [c_bs] ++ name -> handle_command isalpha st ([c_bs] ++ name ++ r) = Some ([], S (length name)))
  end.
Proof. exact macro_call. Qed.
Print Assumptions C55_call_partial.
(** Every acceptable definition extends the history, whatever follows it. *)
Theorem C56_history_grows : forall isalpha isalnum ifs ew h st d rest, history isalpha isalnum ifs ew h st -> acceptable d ->
  exists st1, parser_define isalpha isalnum ifs ew st (macro_text d ++ rest) = Some (st1, length (macro_text d)) /\ history isalpha isalnum ifs ew (d :: h) st1.
Proof. exact history_grows. Qed.
Print Assumptions C56_history_grows.
Example C55_case : forall isalnum ifs ew, exists st, history letter isalnum ifs ew [d_foo] st /\
  call_args d_foo (lit "[q]{w{}}e") [lit "q"; lit "w{}"] 8 /\ handle_command letter st (lit "\foo[q]{w{}}e") = Some (lit "aq{b}w{}", 12) /\
  handle_command letter st (lit "\foo{w}e") = Some (lit "ax{b}w", 7) /\ handle_command letter st (lit "\fool") = None.
Proof. exact c55_case. Qed.
(** false for a name that ends in @: the command is found inside a longer one *)
Theorem C55_longer_word_refuted : forall isalnum ifs ew, exists st, parser_define letter isalnum ifs ew empty (lit "\newcommand{\my@}{1}") = Some (st, 20) /\
  handle_command letter st (lit "\my@other") = Some (lit "1", 4).
Proof. exact c55_refuted. Qed.
Print Assumptions C55_longer_word_refuted.
(** C56 is false across kinds of definition: a \let hides every later \renewcommand of the same name. *)
Theorem C56_latest_wins_refuted : forall isalnum ifs ew, exists st1 st2,
  parser_define letter isalnum ifs ew empty (lit "\let\foo\bar") = Some (st1, 12) /\
  parser_define letter isalnum ifs ew st1 (lit "\renewcommand{\foo}{x}") = Some (st2, 22) /\
  handle_command letter st2 (lit "\foo") = Some (lit "\bar", 4).
Proof. exact c56_refuted. Qed.
Print Assumptions C56_latest_wins_refuted.
(** ... and a definition whose body uses the old meaning of the same name is dropped. *)
Theorem C56_self_reference_refuted : forall isalnum ifs ew, exists st1 st2,
  parser_define letter isalnum ifs ew empty (lit "\newcommand{\foo}{a}") = Some (st1, 20) /\
  parser_define letter isalnum ifs ew st1 (lit "\renewcommand{\foo}{b\foo}") = Some (st2, 26) /\
  handle_command letter st2 (lit "\foo") = Some (lit "a", 4).
Proof. exact c56_self. Qed.
Print Assumptions C56_self_reference_refuted.

(** C57: expand_commands with parameterless macros replaces exactly their uses, macro after macro, if the result
    has no use left. *)
Theorem C57_expand_partial : forall isalpha isalnum ew ms text out, (forall n b, In (n, b) ms -> word n) -> replaces_all ms text out -> (forall n b, In (n, b) ms -> ~ uses n out) ->
  expand_commands isalpha isalnum ew {| c_cmds := table ms; c_lets := [] |} text false = Some out.
Proof. exact expand_plain. Qed.
Print Assumptions C57_expand_partial.
(** such tables are what definitions of parameterless macros produce *)
Theorem C57_table_reached : forall isalpha isalnum ifs ew h st, history isalpha isalnum ifs ew h st -> Forall (fun d => arity d = 0 /\ math_only d = false) h ->
  exists ms, st = {| c_cmds := table ms; c_lets := [] |} /\ (forall n b, In (n, b) ms -> word n) /\ NoDup (map fst ms) /\
    forall n b, In (n, b) ms <-> exists d, latest n h = Some d /\ mc_body d = b.
Proof. exact table_reached. Qed.
Print Assumptions C57_table_reached.
Example C57_case : (forall n b, In (n, b) ms_ab -> word n) /\ replaces_all ms_ab (lit "x \a \b{} \ab") (lit "x 1 2{} \ab") /\ (forall n b, In (n, b) ms_ab -> ~ uses n (lit "x 1 2{} \ab")).
Proof. exact ms_ab_ok. Qed.
(** false: the second backslash of a line break is taken for the start of a command ... *)
Theorem C57_line_break_refuted : forall isalnum ew, expand_commands letter isalnum ew {| c_cmds := table [(lit "x", lit "\mathbf{x}")]; c_lets := [] |} (lit "1\\x") false = Some (lit "1\\mathbf{x}").
Proof. exact c57_break. Qed.
Print Assumptions C57_line_break_refuted.
(** ... and a use followed by another macro loses its word boundary when that one is replaced first. *)
Theorem C57_adjacent_refuted : forall isalnum ew, expand_commands letter isalnum ew {| c_cmds := table [(lit "b", lit "x"); (lit "a", lit "A")]; c_lets := [] |} (lit "\a\b") false = Some (lit "\ax").
Proof. exact c57_adjacent. Qed.
Print Assumptions C57_adjacent_refuted.

(** C58: false. The parser registers a definition twice, so an \edef that refers to itself is evaluated twice. *)
Theorem C58_edef_once_refuted : forall isalnum ifs ew, exists st1 st2 n,
  parser_define letter isalnum ifs ew empty (lit "\def\a{1}") = Some (st1, 9) /\
  parser_define letter isalnum ifs ew st1 (lit "\edef\a{\a,2}") = Some (st2, n) /\
  handle_command letter st2 (lit "\a") = Some (lit "1,2,2", 2).
Proof. exact c58_refuted. Qed.
Print Assumptions C58_edef_once_refuted.
(** True when the body has no use of a known command: then both registrations store it unchanged. *)
Theorem C58_edef_once_partial : forall isalpha isalnum ifs ew st name body pat n g,
  name <> [] -> ~ In name whitelist -> (forall d, strip body <> lit "\@ifstar" ++ d) -> (forall k e, In (k, e) (c_cmds st ++ c_lets st) -> re_search (ce_pat e) body = None) -> re_search pat body = None ->
  forall st1, register_command isalpha isalnum ifs ew st (TDef name body n pat g true) = Some st1 ->
  register_command isalpha isalnum ifs ew st1 (TDef name body n pat g true) = Some st1 /\ cget name (c_cmds st1) = Some {| ce_pat := pat; ce_math := false; ce_kind := KDef (GPlain body) g |}.
Proof. exact c58_partial. Qed.
Print Assumptions C58_edef_once_partial.

(** C59: \let\new\old and \let\new=\old, before a blank, a brace or the end, take exactly their own text. *)
Theorem C59_let_partial : forall gap name eq old rest, blank gap -> word name -> word old -> let_stop rest ->
  handle_definition (let_text gap name eq old ++ rest) =
    (Some (TLet name ([c_bs] ++ old) (usage_pattern name)), length (let_text gap name eq old)).
Proof. exact let_definition. Qed.
Print Assumptions C59_let_partial.
Example C59_case : blank (lit " ") /\ word (lit "foo") /\ word (lit "bar") /\ let_stop (lit " baz") /\ let_text (lit " ") (lit "foo") true (lit "bar") = lit "\let \foo=\bar".
Proof. exact c59_case. Qed.
(** false with a blank before the equals sign, or for a character: the rest of the document becomes the meaning *)
Theorem C59_let_swallows_refuted : forall rest, exists pat1 pat2,
  handle_definition (lit "\let\foo =\bar baz" ++ rest) = (Some (TLet (lit "foo") (strip (lit "\bar baz" ++ rest)) pat1), 18 + length rest) /\
  handle_definition (lit "\let\foo ={ baz" ++ rest) = (Some (TLet (lit "foo") (strip (lit "{ baz" ++ rest)) pat2), 15 + length rest).
Proof. exact c59_refuted. Qed.
Print Assumptions C59_let_swallows_refuted.
(** false before any other character: it becomes part of the old name *)
Theorem C59_let_comma_refuted : exists pat, handle_definition (lit "\let\foo\bar,text more") = (Some (TLet (lit "foo") (lit "\bar,text") pat), 17).
Proof. exact c59_comma. Qed.
Print Assumptions C59_let_comma_refuted.

(** C60: \def\name#1...#k{body}, called with arguments that have at most one level of braces inside. *)
Theorem C60_def_call_partial : forall isalpha isalnum ifs ew h st name k body rest l r, history isalpha isalnum ifs ew h st -> acceptable_def name body k ->
  (forall ps, reads_as body ps -> no_zero ps) -> (k = 0 -> forall ps, reads_as body ps -> params ps = []) ->
  exists st1, parser_define isalpha isalnum ifs ew st (def_text name k body ++ rest) = Some (st1, length (def_text name k body)) /\
    (length l = k -> (forall w a, In (w, a) l -> blank w /\ shallow a) -> (k = 0 -> word_end r) ->
     exists out, (k = 0 -> out = body) /\ (k <> 0 -> substituted isalpha body (map snd l) out) /\
       (out <> [c_bs] ++ name ++ call_text l -> handle_command isalpha st1 ([c_bs] ++ name ++ call_text l ++ r) = Some (out, S (length name) + length (call_text l)))).
Proof. exact def_call. Qed.
Print Assumptions C60_def_call_partial.
Example C60_case : acceptable_def (lit "foo") (lit "[#1|#2]") 2 /\ (forall w a, In (w, a) two_args -> blank w /\ shallow a) /\ call_text two_args = lit "{a{b}} {c}" /\
  forall isalnum ifs ew, exists st, parser_define letter isalnum ifs ew empty (lit "\def\foo#1#2{[#1|#2]}") = Some (st, 21) /\ handle_command letter st (lit "\foo{a{b}} {c}d") = Some (lit "[a{b}|c]", 14).
Proof. exact c60_case. Qed.
(** false at depth three: the argument is the opening brace alone *)
Theorem C60_deep_argument_refuted : forall isalnum ifs ew, exists st, parser_define letter isalnum ifs ew empty (lit "\def\foo#1{[#1]}") = Some (st, 16) /\
  handle_command letter st (lit "\foo{a{b{c}}}") = Some (lit "[{]", 5).
Proof. exact c60_refuted. Qed.
Print Assumptions C60_deep_argument_refuted.
