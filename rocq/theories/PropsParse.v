(** Properties of the main loop, LatexParser.parse (C38, C61, C62, C64).  A run is None
    when it does not finish within the given number of rounds. *)
From Coq Require Import List NArith ZArith PeanoNat Lia Bool String.
From Verif Require Import PyStr Regex TexUtilsModel Json BuilderModel TokensModel CommandModel CommandSpec CommandProofs5 CommandCases ParseModel ParseSpec ParseCore ParseCases ParseFinal.
Import ListNotations. Notation length := List.length. Notation concat := List.concat. Open Scope list_scope.

(** C38: parse terminates.  False: an unclosed \begingroup at the front makes no progress, whatever the other
    components do, as long as none of them claims it. *)
Theorem C38_group_refuted : forall St expand user_command define if_else legacy before after process on_label isword is_env is_new on_env on_new doc rest s o,
  strip_latex_comments doc = lit "\begingroup" ++ rest ->
  (forall p q, rest <> p ++ lit "\endgroup" ++ q) ->
  isword 112%N = true -> (forall x r, rest = x :: r -> isword x = false) ->
  let t := lit "\begingroup" ++ rest in
  user_command s t = Ok None -> define s t = Ok (s, 0%Z) -> if_else s t = Ok None -> legacy s t = Ok None ->
  Forall (fun h => h_can h s t = false) before -> is_env s t = false -> is_new s t = false ->
  forall fuel, parse St expand user_command define if_else legacy (before ++ environments St isword is_env is_new on_env on_new :: after) process on_label fuel o s doc = None.
Proof. exact group_diverges'. Qed.
Print Assumptions C38_group_refuted.
Example C38_group_case : forall isalnum ifs ew fuel, core_parse isalnum ifs ew fuel empty (lit "\begingroup A paper.") = None.
Proof. exact group_case. Qed.
(** false for overpic and tikzpicture environments that are not closed *)
Theorem C38_overpic_refuted : forall isalnum ifs ew fuel, core_parse isalnum ifs ew fuel empty (lit " \begin{overpic}[width=1cm]{a.png}") = None.
Proof. exact overpic_diverges. Qed.
Print Assumptions C38_overpic_refuted.
Theorem C38_tikz_refuted : forall isalnum ifs ew fuel, core_parse isalnum ifs ew fuel empty (lit " \begin{tikzpicture}\draw") = None.
Proof. exact tikz_diverges. Qed.
Print Assumptions C38_tikz_refuted.
(** false for two macros that call each other *)
Theorem C38_macros_refuted : forall isalnum ifs ew fuel, core_parse isalnum ifs ew fuel empty (lit "\newcommand{\a}{\b}\newcommand{\b}{\a}\a") = None.
Proof. exact macros_diverge. Qed.
Print Assumptions C38_macros_refuted.
(** true when every component makes progress: a replacement makes the remaining text lighter, a handler that
    accepts consumes at least one character *)
Theorem C38_terminates_partial : forall St W I expand user_command define if_else legacy handlers process on_label o s content fuel, weight W ->
  replacing_shrinks St W I user_command -> replacing_shrinks St W I if_else -> replacing_shrinks St W I legacy -> Forall (handler_progress St W I process) handlers ->
  keeps_state St I define -> keeps_label St I on_label -> I s -> W (strip_latex_comments content) < fuel ->
  parse St expand user_command define if_else legacy handlers process on_label fuel o s content <> None.
Proof. exact general_end. Qed.
Print Assumptions C38_terminates_partial.
(** true for macros without parameters, none of which leads back to itself *)
Theorem C38_macros_partial : forall St (mac : St -> cstate) expand define if_else legacy handlers process on_label ms rank o s content fuel,
  (forall n b, In (n, b) ms -> word n) -> NoDup (map fst ms) -> acyclic ms rank ->
  let W := macro_weight ms rank in
  let I := fun s => mac s = {| c_cmds := table ms; c_lets := [] |} in
  replacing_shrinks St W I if_else -> replacing_shrinks St W I legacy -> Forall (handler_progress St W I process) handlers ->
  keeps_state St I define -> keeps_label St I on_label -> I s -> W (strip_latex_comments content) < fuel ->
  parse St expand (fun s t => Ok (option_map (fun p => (fst p, Z.of_nat (snd p))) (handle_command letter (mac s) t))) define if_else legacy handlers process on_label fuel o s content <> None.
Proof. exact macros_end. Qed.
Print Assumptions C38_macros_partial.
Example C38_macros_case : (forall n b, In (n, b) ms_chain -> word n) /\ NoDup (map fst ms_chain) /\ acyclic ms_chain chain_rank /\
  macro_weight ms_chain chain_rank (lit "\b\b{}") = 18.
Proof. exact ms_chain_ok. Qed.
(** both partial theorems apply to the same parser: no handlers, no definitions *)
Example C38_partial_case : forall fuel content, macro_weight ms_chain chain_rank (strip_latex_comments content) < fuel -> bare_parse fuel content <> None.
Proof. exact bare_ends. Qed.

(** C61: one malformed command does not lose the rest of the document.  False: an unclosed brace after an unknown
    command raises, and parse_file returns no token at all; an unclosed overpic swallows everything. *)
Theorem C61_unknown_refuted : forall isalnum ifs ew fuel,
  core_parse isalnum ifs ew (3 + fuel) empty (lit "A paper. \foo{bar") = Some (Raise TypeError) /\
  parse_file_result cstate (core_expand isalnum ew) core_user (core_define isalnum ifs ew) none_of none_of core_handlers core_process core_label (3 + fuel) empty (lit "A paper. \foo{bar") = Some [].
Proof. exact unknown_lost. Qed.
Print Assumptions C61_unknown_refuted.
Theorem C61_overpic_refuted : forall isalnum ifs ew fuel, core_parse isalnum ifs ew (2 + fuel) empty (lit "\begin{overpic} The whole paper.") = Some (Ok (empty, [])).
Proof. exact overpic_lost. Qed.
Print Assumptions C61_overpic_refuted.
(** an unknown command whose brace is closed raises nothing: it takes exactly itself and its argument *)
Theorem C61_unknown_partial : forall St expand (s : St) name arg rest x, word name -> good_body arg -> expand s ([c_bs] ++ name ++ [c_lb] ++ arg ++ [c_rb]) = Ok x ->
  exists tok, check_unknown St expand s ([c_bs] ++ name ++ [c_lb] ++ arg ++ [c_rb] ++ rest) = Ok (Some (tok, length name + length arg + 3)).
Proof. exact unknown_closed. Qed.
Print Assumptions C61_unknown_partial.

(** C62: a text without backslash, dollar, percent sign or opening brace becomes one text token, the text itself
    without its leading blanks (after expansion, which is the identity on such a text unless a macro pattern matches). *)
Theorem C62_plain_text : forall St expand user_command define if_else legacy handlers process on_label fuel o s content x,
  let t := strip_latex_comments content in
  ~ In c_bs t -> ~ In c_dollar t -> ~ In c_pct t -> ~ In c_lb t ->
  (if unknown_on o then expand s (lstrip t) = Ok x else x = lstrip t) ->
  parse St expand user_command define if_else legacy handlers process on_label (S fuel) o s content = Some (Ok (s, if nilb (lstrip t) || nilb x then [] else [text_token x])).
Proof. exact plain_text. Qed.
Print Assumptions C62_plain_text.
Example C62_case : forall isalnum ifs ew, core_parse isalnum ifs ew 1 empty (lit "  Hello, [world] (1)!") = Some (Ok (empty, [text_token (lit "Hello, [world] (1)!")])).
Proof. exact plain_case. Qed.

(** C64: braces around a word do not change the spacing.  False: the blank before the group is lost. *)
Theorem C64_group_refuted : forall isalnum ifs ew fuel,
  core_parse isalnum ifs ew (6 + fuel) empty (lit "two {words} here") = Some (Ok (empty, [text_token (lit "twowords here")])) /\
  core_parse isalnum ifs ew (6 + fuel) empty (lit "two words here") = Some (Ok (empty, [text_token (lit "two words here")])).
Proof. exact group_spacing. Qed.
Print Assumptions C64_group_refuted.
