(** Vocabulary for C82-C84: the text of a conditional. *)
From Coq Require Import List NArith PeanoNat Bool String.
From Verif Require Import PyStr Json DelimSpec CommandSpec IfModel IfSpec.
Import ListNotations. Notation length := List.length. Open Scope list_scope.

(** names with another meaning after \if: \ifx, \ifnum, ... *)
Definition reserved : list str := map lit ["x"; "num"; "dim"; "cat"; "case"; "defined"; "undefined"; "thenelse"]%string.
(** [\ifNAME] followed by [rest], after [names] were declared with \newif.  A declared
    name is followed by no letter, and no other declared name is a
    prefix of it.  Another name has at least three letters, and
    a blank or a command follows. *)
Inductive heading (names : list str) (name rest : str) : Prop :=
| hd_declared : In name names -> word name -> word_end rest ->
    (forall n r, In n names -> n <> name -> name <> n ++ r) -> heading names name rest
| hd_general : forall x q, word name -> 3 <= length name -> rest = x :: q -> isspace x = true \/ x = c_bs ->
    (forall p r, In p reserved -> name <> p ++ r) -> (forall n r, In n names -> name <> n ++ r) -> heading names name rest.
(** no word character follows (ASCII) *)
Definition boundary (rest : str) : Prop := match rest with x :: _ => is_w x = false | [] => True end.
(** no command whose name begins with if, @if, IfFileExists, fi, els or or starts in [s] *)
Definition commands_apart : list str := map lit ["\if"; "\@if"; "\IfFileExists"; "\fi"; "\els"; "\or"]%string.
Definition quiet_text (s rest : str) : Prop :=
  forall a b p r, s = a ++ b -> b <> [] -> In p commands_apart -> b ++ rest <> p ++ r.
(** A text read as items: plain texts, \ifNAME, \else and \fi. *)
Inductive fits (names : list str) : list item -> Prop :=
| fi_nil : fits names []
| fi_txt : forall s r, quiet_text s (render r) -> fits names r -> fits names (Txt s :: r)
| fi_open : forall name r, heading names name (render r) -> fits names r -> fits names (Open (lit "\if" ++ name) :: r)
| fi_close : forall r, boundary (render r) -> fits names r -> fits names (Close (lit "\fi") :: r)
| fi_else : forall r, boundary (render r) -> fits names r -> fits names (Else (lit "\else") :: r).
(** The names after \if that the handler treats by another rule. *)
Definition plain_name (name : str) : Prop := forall r, name <> lit "if" ++ r /\ name <> lit "@if" ++ r.
(** Which rule reports the conditional: its own name if it was declared, else "if". *)
Inductive rule (names : list str) (name : str) : str -> Prop :=
| ru_declared : In name names -> rule names name name
| ru_general : ~ In name names -> rule names name (lit "if").
(** \iffalse is reported as a conditional whose branches are exchanged. *)
Definition chosen (name a b : str) : str := if list_eq_dec N.eq_dec name (lit "false") then b else a.
(** the (at most [k]) brace groups at the start of [text]; they end at [p] *)
Definition groups_upto (k : nat) (text : str) (bs : list str) (p : nat) : Prop :=
  groups_at c_lb c_rb text bs p /\ length bs <= k /\ (length bs < k -> forall b n, ~ group_at c_lb c_rb (skipn p text) b n).
