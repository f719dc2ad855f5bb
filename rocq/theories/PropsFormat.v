(** C99-C101: formatting commands (formatting.py).  [fmt_handle u quantize exclude prev text] is
    FormattingHandler.handle: the token, the number of characters used up and the previous token
    afterwards; [u] tells which characters beyond ASCII belong to words, [quantize] rounds a decimal
    number.  The lists of commands are in FormatSpec.v. *)
From Coq Require Import List NArith PeanoNat Lia Bool String.
From Verif Require Import PyStr Json DelimSpec StyleSpec CommandSpec StyleModel FormatModel FormatSpec FormatProofs FormatProofs3 FormatProofs5 FormatProofs6 FormatCases.
Import ListNotations. Notation length := List.length. Open Scope list_scope.

(** C99: whatever the text, the answer uses up at least one character and at most the text, and of the
    previous token at most a number at its end is removed; or nothing is done.  The only exception
    raised is that of an unclosed \hphantom. *)
Theorem C99_total : forall u quantize exclude prev content, token_ok prev ->
  (exists tok n after, fmt_handle u quantize exclude prev content = Ok (tok, n, after) /\ (1 <= n <= length content /\ number_cut prev after \/ tok = None /\ n = 0 /\ after = prev)) \/
  (fmt_handle u quantize exclude prev content = Raise TypeError /\ exists ws s, blank ws /\ content = lit "\hphantom" ++ ws ++ c_lb :: s /\ forall b n, ~ group_at c_lb c_rb (c_lb :: s) b n).
Proof. exact total. Qed.
Print Assumptions C99_total.
(** The handler accepts a text exactly if it does something with it. *)
Theorem C99_can_handle : forall u quantize prev content, token_ok prev -> (fmt_can_handle u content = true <-> fmt_handle u quantize [] prev content <> Ok (None, 0, prev)).
Proof. exact can. Qed.
Print Assumptions C99_can_handle.
(** An unclosed \hphantom always raises: the document is lost. *)
Theorem C99_hphantom_refuted : forall u quantize ws s prev, blank ws -> (forall b n, ~ group_at c_lb c_rb (c_lb :: s) b n) -> fmt_handle u quantize [] prev (lit "\hphantom" ++ ws ++ c_lb :: s) = Raise TypeError.
Proof. exact hphantom_unclosed. Qed.
Print Assumptions C99_hphantom_refuted.
(** C100: a layout command disappears and nothing else does; *)
Theorem C100_removed : forall u quantize word rest prev, In word removed -> name_over u rest -> fmt_handle u quantize [] prev (lit "\" ++ lit word ++ rest) = Ok (None, 1 + length (lit word), prev).
Proof. exact words_removed. Qed.
Print Assumptions C100_removed.
(** a page break becomes a new line, *)
Theorem C100_new_line : forall u quantize word rest prev, In word new_line -> name_over u rest -> fmt_handle u quantize [] prev (lit "\" ++ lit word ++ rest) = Ok (Some (text_of [10%N]), 1 + length (lit word), prev).
Proof. exact words_new_line. Qed.
Print Assumptions C100_new_line.
(** a horizontal space a blank. *)
Theorem C100_blank : forall u quantize word rest prev, In word blanks -> name_over u rest -> fmt_handle u quantize [] prev (lit "\" ++ lit word ++ rest) = Ok (Some (text_of [c_sp]), 1 + length (lit word), prev).
Proof. exact words_blank. Qed.
Print Assumptions C100_blank.
(** A longer command that begins with such a name is not touched (\centeringx, \noindents), unless it is itself a
    command of the handler. *)
Theorem C100_longer : forall u quantize word x s rest prev, In word (removed ++ new_line) -> letter x -> ~ continued word x -> Forall letter s -> (forall a b, lit word ++ x :: s <> a ++ lit "maketitle" ++ b) -> name_over u rest ->
  fmt_handle u quantize [] prev (lit "\" ++ lit word ++ x :: s ++ rest) = Ok (None, 0, prev).
Proof. exact longer_ok. Qed.
Print Assumptions C100_longer.
(** Other commands that begin like a space are cut in two; *)
Theorem C100_prefix_refuted : forall u quantize prev, fmt_handle u quantize [] prev (lit "\quadrant") = Ok (Some (text_of [c_sp]), 5, prev) /\ fmt_handle u quantize [] prev (lit "\spacefactor") = Ok (Some (text_of [c_sp]), 6, prev).
Proof. exact no_boundary. Qed.
Print Assumptions C100_prefix_refuted.
(** \protect takes the text of the protected command away; *)
Theorem C100_protect_refuted : forall u quantize prev, fmt_handle u quantize [] prev (lit "\protect\textbf{important} x") = Ok (None, 26, prev) /\ fmt_handle u quantize [] prev (lit "\protect\cite{a}") = Ok (None, 16, prev).
Proof. exact protect_loses. Qed.
Print Assumptions C100_protect_refuted.
(** \labelsep all text up to the next closing brace; *)
Theorem C100_labelsep_refuted : forall u quantize prev, fmt_handle u quantize [] prev (lit "\labelsep and then all of this text") = Ok (None, 35, prev).
Proof. exact labelsep_loses. Qed.
Print Assumptions C100_labelsep_refuted.
(** \textbackslash gives two backslashes. *)
Theorem C100_backslash_refuted : forall u quantize prev, fmt_handle u quantize [] prev (lit "\textbackslash x") = Ok (Some (text_of [c_bs; c_bs]), 14, prev).
Proof. exact two_backslashes. Qed.
Print Assumptions C100_backslash_refuted.
(** The number before \baselineskip is taken out of the text before it, *)
Theorem C100_year_refuted : forall u quantize, fmt_handle u quantize [] (text_of (lit "as of 2024")) (lit "\baselineskip") = Ok (None, 13, text_of (lit "as of ")).
Proof. exact word_taken. Qed.
Print Assumptions C100_year_refuted.
(** C101: a set-up command with its group disappears, whatever is nested in the group; *)
Theorem C101_group : forall u quantize cmd ws body rest prev, In cmd setup_commands -> blank ws -> good_body body ->
  fmt_handle u quantize [] prev (lit "\" ++ lit cmd ++ ws ++ [c_lb] ++ body ++ [c_rb] ++ rest) = Ok (None, length (lit "\" ++ lit cmd ++ ws ++ [c_lb] ++ body ++ [c_rb]), prev).
Proof. exact group_removed. Qed.
Print Assumptions C101_group.
(** if the group is not closed only the command does; *)
Theorem C101_unclosed : forall u quantize cmd ws s prev, In cmd setup_commands -> blank ws -> (forall b n, ~ group_at c_lb c_rb (c_lb :: s) b n) ->
  fmt_handle u quantize [] prev (lit "\" ++ lit cmd ++ ws ++ [c_lb] ++ s) = Ok (None, length (lit "\" ++ lit cmd ++ ws), prev).
Proof. exact group_unclosed. Qed.
Print Assumptions C101_unclosed.
(** \ensuremath gives an inline formula with its argument; *)
Theorem C101_ensuremath : forall u quantize ws body rest prev, blank ws -> good_body body ->
  fmt_handle u quantize [] prev (lit "\ensuremath" ++ ws ++ [c_lb] ++ body ++ [c_rb] ++ rest) =
  Ok (Some (VDict [(lit "type", VStr (lit "equation")); (lit "content", VStr body); (lit "display", VStr (lit "inline"))]), length (lit "\ensuremath" ++ ws ++ [c_lb] ++ body ++ [c_rb]), prev).
Proof. exact ensure_ok. Qed.
Print Assumptions C101_ensuremath.
(** \hphantom as many blanks as its argument has characters; *)
Theorem C101_hphantom : forall u quantize ws body rest prev, blank ws -> good_body body ->
  fmt_handle u quantize [] prev (lit "\hphantom" ++ ws ++ [c_lb] ++ body ++ [c_rb] ++ rest) = Ok (Some (text_of (repeat c_sp (length body))), length (lit "\hphantom" ++ ws ++ [c_lb] ++ body ++ [c_rb]), prev).
Proof. exact hphantom_ok. Qed.
Print Assumptions C101_hphantom.
(** a command with a plain argument disappears with it, *)
Theorem C101_argument : forall u quantize cmd ws arg rest prev, In cmd style_commands -> blank ws -> ~ In c_rb arg ->
  fmt_handle u quantize [] prev (lit "\" ++ lit cmd ++ ws ++ [c_lb] ++ arg ++ [c_rb] ++ rest) = Ok (None, length (lit "\" ++ lit cmd ++ ws ++ [c_lb] ++ arg ++ [c_rb]), prev).
Proof. exact style_removed. Qed.
Print Assumptions C101_argument.
(** \vspace and \hspace with a plain argument become a new line and a blank. *)
Theorem C101_space : forall u quantize cmd ws arg rest prev out, In (cmd, out) [("vspace"%string, 10%N); ("vspace*"%string, 10%N); ("hspace"%string, c_sp); ("linespread"%string, c_sp)] -> blank ws -> ~ In c_rb arg -> arg <> [] ->
  fmt_handle u quantize [] prev (lit "\" ++ lit cmd ++ ws ++ [c_lb] ++ arg ++ [c_rb] ++ rest) = Ok (Some (text_of [out]), length (lit "\" ++ lit cmd ++ ws ++ [c_lb] ++ arg ++ [c_rb]), prev).
Proof. exact space_cmd. Qed.
Print Assumptions C101_space.
(** \num gives its number; *)
Theorem C101_number : forall u quantize ws n rest prev, blank ws -> ~ In c_rb n ->
  fmt_handle u quantize [] prev (lit "\num" ++ ws ++ [c_lb] ++ n ++ [c_rb] ++ rest) = Ok (Some (text_of n), length (lit "\num" ++ ws ++ [c_lb] ++ n ++ [c_rb]), prev).
Proof. exact num_plain_ok. Qed.
Print Assumptions C101_number.
(** with options it is rounded only to the places that round-precision asks for. *)
Theorem C101_rounded : forall u quantize o ws n rest prev, ~ In c_rk o -> blank ws -> ~ In c_rb n ->
  exists s, fmt_handle u quantize [] prev (lit "\num" ++ [c_lk] ++ o ++ [c_rk] ++ ws ++ [c_lb] ++ n ++ [c_rb] ++ rest) = Ok (Some (text_of s), length (lit "\num" ++ [c_lk] ++ o ++ [c_rk] ++ ws ++ [c_lb] ++ n ++ [c_rb]), prev) /\
    (s = n \/ exists a d b, o = a ++ lit "round-precision=" ++ d ++ b /\ d <> [] /\ Forall digit d /\ quantize n d = Some s).
Proof. exact num_option_ok. Qed.
Print Assumptions C101_rounded.
(** A length with a group in it is cut at its first closing brace; *)
Theorem C101_nested_refuted : forall u quantize prev, fmt_handle u quantize [] prev (lit "\hspace{\widthof{abc}}") = Ok (Some (text_of [c_sp]), 21, prev) /\ fmt_handle u quantize [] prev (lit "\vspace{\fpeval{1+1}pt} x") = Ok (Some (text_of [10%N]), 20, prev).
Proof. exact nested_left. Qed.
Print Assumptions C101_nested_refuted.
(** of a stretchable length the stretch stays in the text; *)
Theorem C101_glue_refuted : forall u quantize prev, fmt_handle u quantize [] prev (lit "\vskip 1em plus 2em") = Ok (None, 10, prev).
Proof. exact glue_left. Qed.
Print Assumptions C101_glue_refuted.
(** an unclosed \ensuremath gives a formula without content. *)
Theorem C101_ensuremath_refuted : forall u quantize prev, fmt_handle u quantize [] prev (lit "\ensuremath{x") = Ok (Some (VDict [(lit "type", VStr (lit "equation")); (lit "content", VNone); (lit "display", VStr (lit "inline"))]), 11, prev).
Proof. exact math_unclosed. Qed.
Print Assumptions C101_ensuremath_refuted.
Example C99_case : forall u quantize, token_ok (text_of (lit "see page 0.5")) /\ fmt_handle u quantize [] (text_of (lit "see page 0.5")) (lit "\baselineskip x") = Ok (None, 13, text_of (lit "see page ")).
Proof. intros u quantize. split; [intros _; exists (lit "see page 0.5"); reflexivity|apply number_taken]. Qed.
Example C99_case_open : forall b n, ~ group_at c_lb c_rb (c_lb :: lit "abc") b n.
Proof. exact case_open. Qed.
Example C100_case : forall u, name_over u (lit " x") /\ name_over u (lit "{x}") /\ name_over u [] /\ In "noindent"%string removed.
Proof. exact case_over. Qed.
Example C100_case_longer : fmt_handle (fun _ => false) (fun _ _ => None) [] (VDict []) (lit "\todaysdate x") = Ok (None, 0, VDict []).
Proof. apply (longer_ok _ _ "today" 115%N (lit "date") (lit " x")); [cbn; tauto|right; split; discriminate|intros C; repeat (destruct C as [C|C]; [discriminate C|]); destruct C| | |].
  - repeat (apply Forall_cons; [right; split; discriminate|]); apply Forall_nil.
  - intros a b E. do 10 (destruct a as [|? a]; [discriminate E|]; injection E as _ E). destruct a; discriminate E.
  - intros y r E. injection E as <- _. unfold letter, digit. repeat split; try discriminate; try lia. Qed.
Example C101_case : good_body (lit "pdftitle={A {B}},colorlinks") /\ In "hypersetup"%string setup_commands.
Proof. split; [exact case_body|cbn; tauto]. Qed.
