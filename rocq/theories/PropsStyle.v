(** Properties C86-C87: commands that give a style to their argument and the other
    text commands (parser/handlers/text_formatting.py).  Vocabulary: StyleSpec.v. *)
From Coq Require Import List NArith PeanoNat Bool String.
From Verif Require Import PyStr Json DelimSpec TextModel RomanProofs BuilderModel BoxModel StyleModel StyleSpec StyleSpec2 StyleProofs2 StyleProofs3 StyleProofs4 StyleProofs5 StyleProofs6 StyleProofs7 StyleCases.
Import ListNotations. Notation length := List.length. Open Scope list_scope.

(** * C86 *)
(** A style command with a group is consumed up to the closing brace, and its style is put on exactly the tokens of the group. *)
Theorem C86_group_partial : forall w process name style pre rest b n toks out, In (name, style) style_commands -> In pre [[]; lit "\expandafter"] -> group_at c_lb c_rb rest b n ->
  ~ blank b -> process b = Ok toks -> styled style toks out ->
  handle w process ([c_bs] ++ name ++ pre ++ rest) = Ok (out, length ([c_bs] ++ name ++ pre) + n).
Proof. exact styled_group. Qed.
Print Assumptions C86_group_partial.
(** an empty group yields nothing *)
Theorem C86_empty_partial : forall w process name style pre rest b n, In (name, style) style_commands -> In pre [[]; lit "\expandafter"] -> group_at c_lb c_rb rest b n ->
  blank b -> handle w process ([c_bs] ++ name ++ pre ++ rest) = Ok (VNone, length ([c_bs] ++ name ++ pre) + n).
Proof. exact styled_empty. Qed.
Print Assumptions C86_empty_partial.
(** without a group, the argument is the next character *)
Theorem C86_character_partial : forall w process name style pre ws x r toks out, In (name, style) style_commands -> In pre [[]; lit "\expandafter"] ->
  blank ws -> isspace x = false -> x <> c_lb -> x <> c_bs -> (pre = [] -> ws = [] -> ~ letter x) -> last (x :: r) 0%N <> c_lb ->
  process [x] = Ok toks -> styled style toks out ->
  handle w process ([c_bs] ++ name ++ pre ++ ws ++ x :: r) = Ok (out, length ([c_bs] ++ name ++ pre ++ ws) + 1).
Proof. exact styled_char. Qed.
Print Assumptions C86_character_partial.
(** and before a command there is none: only the style command is consumed. *)
Theorem C86_command_partial : forall w process name style pre ws r toks out, In (name, style) style_commands -> In pre [[]; lit "\expandafter"] ->
  blank ws -> (pre = [] -> ws = [] -> forall q, r <> lit "expandafter" ++ q) -> last (c_bs :: r) 0%N <> c_lb ->
  process [] = Ok toks -> styled style toks out ->
  handle w process ([c_bs] ++ name ++ pre ++ ws ++ c_bs :: r) = Ok (out, length ([c_bs] ++ name ++ pre)).
Proof. exact styled_command. Qed.
Print Assumptions C86_command_partial.
(** every list of tokens has a styled form *)
Theorem C86_every_argument_covered : forall style toks, Forall (fun t => exists d old, t = VDict d /\ has_styles d old) toks -> exists out, styled style toks out.
Proof. exact styled_total. Qed.
Print Assumptions C86_every_argument_covered.
(** In full it is false: a command as argument does not get the style, *)
Theorem C86_command_argument_refuted : handle word_ascii plain (lit "\textbf\alpha x") = Ok (VNone, 7).
Proof. exact command_argument. Qed.
Print Assumptions C86_command_argument_refuted.
(** a style is repeated when the argument has several pieces, *)
Theorem C86_repeated_refuted : handle word_ascii (answer [text_token (lit "a "); styled_text "b" [lit "bold"]; text_token (lit " c")]) (lit "\textbf{a \textbf{b} c}") =
  Ok (VList [styled_text "a " [lit "bold"]; styled_text "b" [lit "bold"; lit "bold"]; styled_text " c" [lit "bold"]], 23).
Proof. exact repeated. Qed.
Print Assumptions C86_repeated_refuted.
(** a style command before blanks at the end of the text raises, *)
Theorem C86_blank_refuted : handle word_ascii plain (lit "\textbf  ") = Raise IndexError.
Proof. exact blank_raises. Qed.
Print Assumptions C86_blank_refuted.
(** and if the text ends with an opening brace, everything up to it is lost. *)
Theorem C86_final_brace_refuted : handle word_ascii plain (lit "\textit x and all of this {") = Ok (styled_text "{" [lit "italic"], 27).
Proof. exact final_brace. Qed.
Print Assumptions C86_final_brace_refuted.
Example C86_case : handle word_ascii plain (lit "\textsuperscript {a {b} \} c} rest") = Ok (styled_text "a {b} \} c" [lit "superscript"], 29).
Proof. vm_compute. reflexivity. Qed.
Example C86_case_character : handle word_ascii plain (lit "\emph  xyz") = Ok (styled_text "x" [lit "italic"], 8).
Proof. vm_compute. reflexivity. Qed.

(** * C87 *)
(** Commands with arguments are consumed up to the closing brace of the last one. *)
Theorem C87_citetext_partial : forall w process rest b n l, group_at c_lb c_rb rest b n -> process b = Ok l -> handle w process (lit "\citetext" ++ rest) = Ok (VList l, 9 + n).
Proof. exact citetext_ok. Qed.
Print Assumptions C87_citetext_partial.
Theorem C87_frac_partial : forall w process name rest a b n la lb, In name [lit "frac"; lit "nicefrac"; lit "textfrac"] -> groups_at c_lb c_rb rest [a; b] n ->
  process a = Ok (map text_token la) -> process b = Ok (map text_token lb) ->
  handle w process ([c_bs] ++ name ++ rest) = Ok (text_token (strip_latex_newlines (join [c_sp] la) ++ lit " / " ++ strip_latex_newlines (join [c_sp] lb)), length ([c_bs] ++ name) + n).
Proof. exact frac_ok. Qed.
Print Assumptions C87_frac_partial.
Theorem C87_texorpdfstring_partial : forall w process rest a b n l d, groups_at c_lb c_rb rest [a; b] n -> process b = Ok l -> as_one l d ->
  handle w process (lit "\texorpdfstring" ++ rest) = Ok (VDict d, 15 + n).
Proof. exact texorpdf_ok. Qed.
Print Assumptions C87_texorpdfstring_partial.
Theorem C87_textcolor_partial : forall w process, w c_rk = false -> forall model s rest name b n l d old st, model_at w model s -> groups_at c_lb c_rb rest [name; b] n ->
  process b = Ok l -> as_one l d -> has_styles d old -> firsts [] (color_style model (strip name) :: old) st ->
  handle w process (lit "\textcolor" ++ s ++ rest) = Ok (styled_with st d, 10 + length s + n).
Proof. exact color_ok. Qed.
Print Assumptions C87_textcolor_partial.
Theorem C87_twocolumn_partial : forall w process rest b n l d, group_at c_lk c_rk rest b n -> process b = Ok l -> as_one l d ->
  handle w process (lit "\twocolumn" ++ rest) = Ok (VDict d, 10 + n).
Proof. exact twocolumn_ok. Qed.
Print Assumptions C87_twocolumn_partial.
Theorem C87_subfloat_partial : forall w process rest cap n b m lc dc lb db, group_at c_lk c_rk rest cap n -> group_at c_lb c_rb (skipn n rest) b m -> b <> [] ->
  process (strip cap) = Ok lc -> as_one lc dc -> process b = Ok lb -> as_one lb db ->
  handle w process (lit "\subfloat" ++ rest) = Ok (group_of [caption_of dc; VDict db], 9 + n + m).
Proof. exact subfloat_ok. Qed.
Print Assumptions C87_subfloat_partial.
Theorem C87_romannumeral_partial : forall w process n ws rest, blank ws -> ws <> [] -> (forall x r, rest = x :: r -> isdigit x = false) ->
  handle w process (lit "\romannumeral" ++ ws ++ str_of_nat n ++ rest) = Ok (text_token (roman_numeral n), 13 + length ws + length (str_of_nat n)).
Proof. exact roman_ok. Qed.
Print Assumptions C87_romannumeral_partial.
(** In full it is false: \frac and \romannumeral need braces and blanks, *)
Theorem C87_bare_refuted : handle word_ascii plain (lit "\frac12") = Ok (VNone, 0) /\ handle word_ascii plain (lit "\romannumeral5") = Ok (VNone, 0).
Proof. exact (conj frac_digits roman_glued). Qed.
Print Assumptions C87_bare_refuted.
(** a fraction raises when a part contains an unknown command and turns formulas into text, *)
Theorem C87_frac_refuted : handle word_ascii (answer [VDict [(k_type, VStr (lit "command")); (lit "command", VStr (lit "\foo"))]]) (lit "\frac{\foo}{2}") = Raise KeyError /\
  handle word_ascii (answer [VDict [(k_type, VStr (lit "equation")); (k_content, VStr (lit "x"))]]) (lit "\frac{$x$}{$x$}") = Ok (text_token (lit "x / x"), 15).
Proof. exact (conj frac_unknown frac_formula). Qed.
Print Assumptions C87_frac_refuted.
(** \subfloat raises when its caption is not closed, and needs one. *)
Theorem C87_subfloat_refuted : handle word_ascii plain (lit "\subfloat[a {b}") = Raise AttributeError /\ handle word_ascii plain (lit "\subfloat{body}") = Ok (VNone, 0).
Proof. exact (conj subfloat_unclosed subfloat_bare). Qed.
Print Assumptions C87_subfloat_refuted.
Example C87_case : handle word_ascii plain (lit "\textcolor [HTML] {FF0000} {some {red} text} rest") =
  Ok (VDict [(k_type, VStr (lit "text")); (k_content, VStr (lit "some {red} text")); (k_styles, VList [VStr (lit "color={HTML:FF0000}")])], 44).
Proof. vm_compute. reflexivity. Qed.
Example C87_case2 : handle word_ascii plain (lit "\frac {1} {n+1}") = Ok (text_token (lit "1 / n+1"), 15) /\
  handle word_ascii plain (lit "\romannumeral 14 b") = Ok (text_token (lit "xiv"), 16) /\
  handle word_ascii plain (lit "\subfloat [cap] {body}") = Ok (group_of [caption_of [(k_type, VStr (lit "text")); (k_content, VStr (lit "cap"))]; text_token (lit "body")], 22).
Proof. vm_compute. repeat split. Qed.
(** The font commands are dropped with their arguments, *)
Theorem C87_fontsize_partial : forall w process p q rest, plain_ok p -> plain_ok q -> let cmd := lit "\fontsize" ++ plain_arg p ++ plain_arg q in
  handle w process (cmd ++ rest) = Ok (VNone, length cmd).
Proof. exact fontsize_ok. Qed.
Print Assumptions C87_fontsize_partial.
Theorem C87_usefont_partial : forall w process p q r s rest, plain_ok p -> plain_ok q -> plain_ok r -> plain_ok s ->
  let cmd := lit "\usefont" ++ plain_arg p ++ plain_arg q ++ plain_arg r ++ plain_arg s in
  handle w process (cmd ++ rest) = Ok (VNone, length cmd).
Proof. exact usefont_ok. Qed.
Print Assumptions C87_usefont_partial.
Theorem C87_selectfont : forall w process rest, w 116%N = true -> (forall x r, rest = x :: r -> w x = false) ->
  handle w process (lit "\selectfont" ++ rest) = Ok (VNone, 11).
Proof. exact selectfont_alone. Qed.
Print Assumptions C87_selectfont.
(** but not when an argument is empty or has a group in it: then the command is not read at all. *)
Theorem C87_font_argument_refuted : handle word_ascii plain (lit "\usefont{T1}{}{m}{n}x") = Ok (VNone, 0) /\
  handle word_ascii plain (lit "\fontsize{\f{a}b}{12}x") = Ok (VNone, 0).
Proof. exact font_argument. Qed.
Print Assumptions C87_font_argument_refuted.
Example C87_case_fonts : handle word_ascii plain (lit "\fontsize{9pt} {\f{2}x") = Ok (VNone, 21) /\ handle word_ascii plain (lit "\selectfont\x") = Ok (VNone, 11) /\
  plain_ok ([c_sp], lit "\f{2") /\ plain_arg ([c_sp], lit "\f{2") = lit " {\f{2}".
Proof. split; [vm_compute; reflexivity|]. split; [vm_compute; reflexivity|]. split; [|reflexivity]. split; [reflexivity|]. split; [discriminate|]. vm_compute. intuition discriminate. Qed.
