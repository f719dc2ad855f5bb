(** Vocabulary for C98: accents. *)
From Coq Require Import List NArith PeanoNat Bool String.
From Verif Require Import PyStr DelimSpec CommandSpec StyleSpec.
Import ListNotations. Notation length := List.length. Notation concat := List.concat. Open Scope list_scope.

(** a command whose name is letters ends where the letters end *)
Definition name_ends (key ws : str) (x : ch) : Prop := forall k r, key = k :: r -> letter k -> ws = [] -> ~ letter x /\ x <> 64%N.
(** [accented key text base rest]: \key followed by its base: a group that is not empty, or a
    character *)
Inductive accented (key : str) : str -> str -> str -> Prop :=
| ac_group : forall ws body rest, blank ws -> good_body body -> body <> [] -> accented key ([c_bs] ++ key ++ ws ++ [c_lb] ++ body ++ [c_rb] ++ rest) (strip body) rest
| ac_char : forall ws x rest, blank ws -> isspace x = false -> x <> c_lb -> name_ends key ws x -> accented key ([c_bs] ++ key ++ ws ++ [x] ++ rest) [x] rest
(** a brace that opens no group, or an empty one *)
| ac_brace : forall ws rest, blank ws -> (forall body n, group_at c_lb c_rb (c_lb :: rest) body n -> body = []) -> accented key ([c_bs] ++ key ++ ws ++ [c_lb] ++ rest) [c_lb] rest.
(** the accent goes on the first character *)
Definition with_accent (nfc : ch -> ch -> str) (base : str) (accent : ch) : str := match base with [] => [] | x :: r => nfc x accent ++ r end.

(** the accents of TeX and the combining characters for them: the signs, *)
Definition sign_accents : list (ch * ch) :=
  [(39 (* ' *), 769 (* acute *)); (96 (* ` *), 768 (* grave *)); (34, 776 (* diaeresis *)); (94 (* ^ *), 770 (* circumflex *)); (126 (* ~ *), 771 (* tilde *)); (61 (* = *), 772 (* macron *)); (46 (* . *), 775 (* dot above *))]%N.
(** the letters and the words of formulas *)
Definition word_accents : list (string * ch) :=
  [("c", 807 (* cedilla *)); ("H", 779 (* double acute *)); ("k", 808 (* ogonek *)); ("b", 817 (* macron below *)); ("d", 803 (* dot below *)); ("r", 778 (* ring *)); ("u", 774 (* breve *)); ("v", 780 (* caron *));
   ("acute", 769); ("grave", 768); ("hat", 770); ("tilde", 771); ("bar", 773 (* overline *)); ("dot", 775); ("ddot", 776); ("breve", 774); ("check", 780); ("vec", 8407 (* arrow *)); ("not", 824 (* solidus *))]%N%string.
Inductive accent_name : str -> ch -> Prop :=
| an_sign : forall x a, In (x, a) sign_accents -> accent_name [x] a
| an_word : forall s a, In (s, a) word_accents -> accent_name (lit s) a.
