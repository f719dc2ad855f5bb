(** C97: authors (author.py).  [w] stands for the characters of \w, [process] for
    TexParser.parse.  The relations are those of AuthorSpec.v. *)
From Coq Require Import List NArith PeanoNat Bool String.
From Verif Require Import PyStr Json DelimSpec EnvHandlerCases AuthorModel AuthorSpec AuthorProofs AuthorCases.
Import ListNotations. Notation length := List.length. Open Scope list_scope.

(** The names between the words \and, in order, without the blank ones, each parsed. *)
Theorem C97_author : forall w process s body rest ps names l, w 100%N = true -> w 68%N = true -> argument true s body rest -> parts w body ps -> shown ps names -> parsed process names l ->
  author_handle w process (lit "\author" ++ s) = Ok (Some (VDict [(lit "type", VStr (lit "author")); (lit "content", VList l)]), length (lit "\author" ++ s) - length rest).
Proof. exact author_exact. Qed.
Print Assumptions C97_author.
(** Every text has such pieces. *)
Theorem C97_every_text_covered : forall w n s, length s <= n -> exists p ps, parts w s (p :: ps).
Proof. exact parts_total. Qed.
Print Assumptions C97_every_text_covered.
(** \email, \affil, \affiliation and \address give their argument, parsed, *)
Theorem C97_fields : forall w process k cmd may s body rest l, command k cmd may -> k = Email \/ k = Affiliation \/ k = Address -> argument may s body rest -> process body = Ok l ->
  author_handle w process (cmd ++ s) = Ok (Some (VDict [(lit "type", VStr (match k with Email => lit "email" | Affiliation => lit "affiliation" | _ => lit "address" end)); (lit "content", VList l)]), length (cmd ++ s) - length rest).
Proof. exact field_exact. Qed.
Print Assumptions C97_fields.
(** and \thanks a footnote. *)
Theorem C97_thanks : forall w process s body rest, argument false s body rest ->
  author_handle w process (lit "\thanks" ++ s) = Ok (Some (VDict [(lit "type", VStr (lit "footnote")); (lit "content", VStr body)]), length (lit "\thanks" ++ s) - length rest).
Proof. exact thanks_exact. Qed.
Print Assumptions C97_thanks.
(** An author command that is not closed raises, always. *)
Theorem C97_unclosed_refuted : forall w process ws s, blank ws -> (forall b n, ~ group_at c_lb c_rb (c_lb :: s) b n) -> author_handle w process (lit "\author" ++ ws ++ c_lb :: s) = Raise TypeError.
Proof. exact author_unclosed. Qed.
Print Assumptions C97_unclosed_refuted.
(** A word \and inside a group separates too, and leaves broken pieces, *)
Theorem C97_nested_refuted : authors_of (lit "\author{A \thanks{x \and y}}") = Some [VList [VStr (lit "A \thanks{x")]; VList [VStr (lit "y}")]].
Proof. exact nested_split. Qed.
Print Assumptions C97_nested_refuted.
(** and so does a word after a line break. *)
Theorem C97_line_break_refuted : authors_of (lit "\author{A\\and B}") = Some [VList [VStr (lit "A\")]; VList [VStr (lit "B")]].
Proof. exact escaped_split. Qed.
Print Assumptions C97_line_break_refuted.
(** \curraddr gives no address. *)
Theorem C97_curraddr_refuted : author_handle aw plain (lit "\curraddr{Paris}") = Ok (None, 9).
Proof. exact curraddr_lost. Qed.
Print Assumptions C97_curraddr_refuted.
Example C97_case : argument true (lit " [short] {" ++ names ++ lit "} rest") names (lit " rest") /\ parts aw names [[]; lit " Ann \thanks{X} "; lit " B\andy "; lit "  Cy "] /\
  shown [[]; lit " Ann \thanks{X} "; lit " B\andy "; lit "  Cy "] [lit "Ann \thanks{X}"; lit "B\andy"; lit "Cy"] /\
  parsed plain [lit "Ann \thanks{X}"; lit "B\andy"; lit "Cy"] [VList [VStr (lit "Ann \thanks{X}")]; VList [VStr (lit "B\andy")]; VList [VStr (lit "Cy")]].
Proof. exact (conj names_argument (conj names_parts (conj names_shown names_parsed))). Qed.
Example C97_case_unclosed : (forall b n, ~ group_at c_lb c_rb (lit "{A {B}") b n) /\ author_handle aw plain (lit "\author{A {B}") = Raise TypeError.
Proof. exact (conj open_never unclosed_raises). Qed.
