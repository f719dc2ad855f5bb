(** C86-C87: examples and counterexamples. *)
From Coq Require Import List NArith PeanoNat Lia Bool String.
From Verif Require Import PyStr Regex Json TexUtilsModel DelimSpec TextModel BuilderModel ContentModel CommandModel BoxModel StyleModel StyleSpec.
Import ListNotations. Notation length := List.length. Open Scope list_scope.
(** ASCII word characters *)
Definition word_ascii (x : ch) : bool := is_letter x || isdigit x || N.eqb x 95.
(** parse on plain text: one text token *)
Definition plain (s : str) : res (list val) := match s with [] => Ok [] | _ => Ok [text_token s] end.
(** parse on a text with several pieces *)
Definition answer (l : list val) (s : str) : res (list val) := Ok l.
Definition styled_text (s : string) (l : list str) : val := VDict [(k_type, VStr (lit "text")); (k_content, VStr (lit s)); (k_styles, VList (map VStr l))].
Lemma repeated : handle word_ascii (answer [text_token (lit "a "); styled_text "b" [lit "bold"]; text_token (lit " c")]) (lit "\textbf{a \textbf{b} c}") =
  Ok (VList [styled_text "a " [lit "bold"]; styled_text "b" [lit "bold"; lit "bold"]; styled_text " c" [lit "bold"]], 23).
Proof. vm_compute. reflexivity. Qed.
Lemma blank_raises : handle word_ascii plain (lit "\textbf  ") = Raise IndexError.
Proof. vm_compute. reflexivity. Qed.
Lemma command_argument : handle word_ascii plain (lit "\textbf\alpha x") = Ok (VNone, 7).
Proof. vm_compute. reflexivity. Qed.
Lemma final_brace : handle word_ascii plain (lit "\textit x and all of this {") = Ok (styled_text "{" [lit "italic"], 27).
Proof. vm_compute. reflexivity. Qed.
Lemma unclosed : handle word_ascii plain (lit "\textbf{never closed") = Ok (styled_text "{" [lit "bold"], 8).
Proof. vm_compute. reflexivity. Qed.
Lemma frac_digits : handle word_ascii plain (lit "\frac12") = Ok (VNone, 0).
Proof. vm_compute. reflexivity. Qed.
Lemma frac_formula : handle word_ascii (answer [VDict [(k_type, VStr (lit "equation")); (k_content, VStr (lit "x"))]]) (lit "\frac{$x$}{$x$}") = Ok (text_token (lit "x / x"), 15).
Proof. vm_compute. reflexivity. Qed.
Lemma frac_unknown : handle word_ascii (answer [VDict [(k_type, VStr (lit "command")); (lit "command", VStr (lit "\foo"))]]) (lit "\frac{\foo}{2}") = Raise KeyError.
Proof. vm_compute. reflexivity. Qed.
Lemma subfloat_unclosed : handle word_ascii plain (lit "\subfloat[a {b}") = Raise AttributeError.
Proof. vm_compute. reflexivity. Qed.
Lemma subfloat_bare : handle word_ascii plain (lit "\subfloat{body}") = Ok (VNone, 0).
Proof. vm_compute. reflexivity. Qed.
Lemma roman_glued : handle word_ascii plain (lit "\romannumeral5") = Ok (VNone, 0).
Proof. vm_compute. reflexivity. Qed.
Lemma color_group : handle word_ascii (answer [text_token (lit "a"); VDict [(k_type, VStr (lit "equation")); (k_content, VStr (lit "x"))]]) (lit "\textcolor{red}{a $x$}") =
  Ok (VDict [(k_type, VStr (lit "group")); (k_content, VList [text_token (lit "a"); VDict [(k_type, VStr (lit "equation")); (k_content, VStr (lit "x"))]]); (k_styles, VList [VStr (lit "color=red")])], 22).
Proof. vm_compute. reflexivity. Qed.
Lemma font_argument : handle word_ascii plain (lit "\usefont{T1}{}{m}{n}x") = Ok (VNone, 0) /\
  handle word_ascii plain (lit "\fontsize{\f{a}b}{12}x") = Ok (VNone, 0).
Proof. split; vm_compute; reflexivity. Qed.
