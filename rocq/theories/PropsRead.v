(** C85: parse reads every piece of the document once and in order.  The relation [reading]
    (ParseRead.v) says what is read, without positions. *)
From Coq Require Import List NArith ZArith PeanoNat Lia Bool String.
From Verif Require Import PyStr Regex TexUtilsModel Json BuilderModel TokensModel CommandModel CommandSpec ParseModel ParseRead ParseReadProofs3 ParseReadCases.
Import ListNotations. Notation length := List.length. Notation concat := List.concat. Open Scope list_scope.

(** A document that can be read piece by piece (text, groups, commands, replacements, each starting where the one before it
    ended) is parsed to exactly that reading, whatever the components are. *)
Theorem C85_read_partial : forall St expand user_command define if_else legacy handlers process on_label o s content s' tk',
  reading St expand user_command define if_else legacy handlers process on_label o s None [] (strip_latex_comments content) s' tk' ->
  exists n, forall fuel, n <= fuel -> parse St expand user_command define if_else legacy handlers process on_label fuel o s content = ret (s', tk').
Proof. exact reading_parse. Qed.
Print Assumptions C85_read_partial.
Example C85_case : demo_reading default_opts tt None [] (strip_latex_comments (lit "Set \{1\} $x$\m {ok} \note\\end")) tt
  [text_token (lit "Set \{1\} "); [(k_type, VStr (lit "equation")); (k_content, VStr (lit "x"))]; text_token (lit "macrook"); text_token (lit "ab" ++ [c_nl] ++ lit "end")].
Proof. exact demo_read. Qed.
(** From the middle of a document: what has been read before matters only through its last character. *)
Theorem C85_rest_partial : forall St expand user_command define if_else legacy handlers process on_label o s prev tk text s' tk',
  reading St expand user_command define if_else legacy handlers process on_label o s prev tk text s' tk' ->
  exists n, forall fuel pre, n <= fuel -> last_char None pre = prev ->
  loop St expand user_command define if_else legacy handlers process on_label fuel o s (pre ++ text) (Z.of_nat (length pre)) tk = ret (s', tk').
Proof. exact reading_loop. Qed.
Print Assumptions C85_rest_partial.
(** False for an opening brace, escaped or glued, at the end: it is dropped. *)
Theorem C85_brace_refuted : forall St expand user_command define if_else legacy handlers process on_label o s fuel, unknown_on o = false ->
  parse St expand user_command define if_else legacy handlers process on_label (S fuel) o s (lit "the set \{") = ret (s, [text_token (lit "the set \")]).
Proof. exact brace_lost. Qed.
Print Assumptions C85_brace_refuted.
