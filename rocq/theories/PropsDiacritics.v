(** C98: accents (diacritics.py).  [accented] of DiacriticsSpec.v says what an accent command and
    its base are; [nfc] is the composition of a character with a combining character. *)
From Coq Require Import List NArith PeanoNat Lia Bool String.
From Verif Require Import PyStr Json DelimSpec StyleSpec DiacriticsModel DiacriticsSpec DiacriticsProofs DiacriticsCases.
Import ListNotations. Notation length := List.length. Open Scope list_scope.

(** An accent command becomes its base with the accent of the table on the first character, and
    exactly the command and its base are used up; *)
Theorem C98_accent : forall nfc key a text base rest, accent_name key a -> accented key text base rest ->
  dia_handle nfc text = (Some (VDict [(lit "type", VStr (lit "text")); (lit "content", VStr (with_accent nfc base a))]), length text - length rest).
Proof. exact accent_ok. Qed.
Print Assumptions C98_accent.
(** any other text is left alone, *)
Theorem C98_other : forall nfc text, (forall key a base rest, accent_name key a -> ~ accented key text base rest) -> dia_handle nfc text = (None, 0).
Proof. exact other_ok. Qed.
Print Assumptions C98_other.
(** A base that is a command is not composed: the accent goes on the backslash. *)
Theorem C98_macro_refuted : forall nfc, dia_handle nfc (lit "\'{\i}") = (Some (text_tok (nfc c_bs 769%N ++ lit "i")), 6) /\ dia_handle nfc (lit "\'\i") = (Some (text_tok (nfc c_bs 769%N)), 3).
Proof. exact macro_base. Qed.
Print Assumptions C98_macro_refuted.
Theorem C98_stacked_refuted : forall nfc, dia_handle nfc (lit "\'{\^e}") = (Some (text_tok (nfc c_bs 769%N ++ lit "^e")), 7).
Proof. exact stacked. Qed.
Print Assumptions C98_stacked_refuted.
(** With an empty group the brace is accented and its partner left in the text. *)
Theorem C98_empty_refuted : forall nfc, dia_handle nfc (lit "\^{}x") = (Some (text_tok (nfc c_lb 770%N)), 3).
Proof. exact empty_base. Qed.
Print Assumptions C98_empty_refuted.
Example C98_case_group : accented (lit "vec") (lit "\vec {ab} c") (lit "ab") (lit " c") /\ accent_name (lit "vec") 8407%N /\ accent_name (lit "'") 769%N.
Proof. split; [exact sample_group|split; apply names_table; vm_compute; tauto]. Qed.
Example C98_case_char : accented (lit "vec") (lit "\vec3 c") (lit "3") (lit " c").
Proof. exact sample_char. Qed.
Example C98_case_other : forall key a base rest, accent_name key a -> ~ accented key (lit "\copyright 3") base rest.
Proof. exact not_accent. Qed.
