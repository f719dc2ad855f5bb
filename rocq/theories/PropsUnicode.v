(** C110-C112: commands and \uXXXX sequences turned into characters. *)
From Coq Require Import List NArith String.
From Verif Require Import PyStr UnicodeTable UnicodeModel UnicodeSpec.
From Verif Require UnicodeProofs5 UnicodeCases UnicodeCover.
Import ListNotations.
Notation length := List.length.
Open Scope list_scope.

(** C110: in a text made of characters, sequences, recognised commands and commands the table does not have,
    every command of the table becomes its characters and everything else stays as it is. *)
Theorem C110_converted : forall l, well l -> convert (written l) = meant l.
Proof. exact UnicodeProofs5.convert_items. Qed.
Print Assumptions C110_converted.
(** A text that meets the hypothesis, and how many of the 2677 keys do. *)
Example C110_case : well UnicodeCases.erdos /\ written UnicodeCases.erdos = lit "Erd\H{o}s {\alpha}\textdollar{}5 \u00e9t \foo \{" /\
  meant UnicodeCases.erdos = lit "Erd" ++ [337%N] ++ lit "s {" ++ [945%N] ++ lit "}$5 " ++ [233%N] ++ lit "t \foo {".
Proof. exact (conj UnicodeCases.erdos_well (conj UnicodeCases.erdos_written UnicodeCases.erdos_meant)). Qed.
Theorem C110_covered : exists l, NoDup (map fst l) /\ length l = 2024 /\ forall k v, In (k, v) l -> In (k, v) unicode_table /\ recognised k v.
Proof. exact UnicodeCover.covered. Qed.
Print Assumptions C110_covered.
(** Not every key of the table is converted: an inner command may be looked for sooner. *)
Theorem C110_every_key_refuted : exists k v, In (k, v) unicode_table /\ convert k <> v.
Proof.
  exists (lit "\boldsymbol{\mathit{A}}"), [119912%N]. split; [exact (proj1 UnicodeCases.key_untouched)|].
  rewrite (proj2 UnicodeCases.key_untouched). discriminate.
Qed.
Print Assumptions C110_every_key_refuted.
(** What a command becomes is read again: the characters a command stands for can join the text behind it to another command. *)
Theorem C110_once_refuted : exists a b, convert (lit a) = [c_bs] /\ convert (lit b) = lit b /\ convert (lit a ++ lit b) <> [c_bs] ++ lit b.
Proof. exists "\textbackslash{}"%string, "alpha"%string. exact UnicodeCases.once_no. Qed.
Print Assumptions C110_once_refuted.
(** The second backslash of a line break is read as the beginning of a command. *)
Theorem C110_line_break_refuted : exists w, convert (lit "\\" ++ w) <> lit "\\" ++ w /\ convert w = w.
Proof. exists (lit "alpha"). exact UnicodeCases.break_no. Qed.
Print Assumptions C110_line_break_refuted.

(** C111: a \uXXXX sequence becomes its character, wherever it is. *)
Theorem C111_sequence : forall ds l, 4 <= length ds <= 6 -> Forall a_hex ds -> (number ds <= 1114111)%N -> plain_value [number ds] ->
  (length ds < 6 -> match l with Ch x :: _ => ~ a_hex x | _ => True end) -> well l ->
  convert (lit "\u" ++ ds ++ written l) = number ds :: meant l.
Proof. exact UnicodeCases.sequence. Qed.
Print Assumptions C111_sequence.
Example C111_case : convert (lit "\u00e9t") = [233%N; 116%N].
Proof. exact UnicodeCases.sequence_case. Qed.
(** The four digits are not the end: further characters that could be digits are taken too. *)
Theorem C111_four_digits_refuted : exists ds w, length ds = 4 /\ Forall a_hex ds /\ convert (lit "\u" ++ ds ++ w) <> number ds :: w.
Proof. exact UnicodeCases.four_no. Qed.
Print Assumptions C111_four_digits_refuted.
(** A character written as a pair of surrogates stays a pair of surrogates. *)
Theorem C111_pair_refuted : convert (lit "\ud83d\ude00") <> [128512%N].
Proof. rewrite UnicodeCases.surrogates. discriminate. Qed.
Print Assumptions C111_pair_refuted.
(** A sequence beyond the last code is not left as it is written. *)
Theorem C111_beyond_refuted : exists ds, Forall a_hex ds /\ (1114111 < number ds)%N /\ convert (lit "\u" ++ ds) <> lit "\u" ++ ds.
Proof. exact UnicodeCases.beyond_no. Qed.
Print Assumptions C111_beyond_refuted.

(** C112: a text with no backslash and no opening brace stays as it is. *)
Theorem C112_plain : forall t, (forall x, In x t -> x <> c_bs /\ x <> c_lb) -> convert t = t.
Proof. exact UnicodeProofs5.convert_plain. Qed.
Print Assumptions C112_plain.
Example C112_case : convert (lit "No command here, 100% of it}.") = lit "No command here, 100% of it}.".
Proof. exact UnicodeCases.plain_case. Qed.
(** A command the table does not have stays as it is, with everything around it. *)
Theorem C112_unknown : forall k l, unknown k -> (ends_in_brace k -> good_open l) -> (ends_in_letter k -> no_letter_next l) -> well l ->
  convert (k ++ written l) = k ++ meant l.
Proof. exact UnicodeCases.unknown_stays. Qed.
Print Assumptions C112_unknown.
Example C112_unknown_case : unknown (lit "\section").
Proof. exact UnicodeCases.section_unknown. Qed.
(** A brace that is not part of a command can disappear. *)
Theorem C112_braces_refuted : exists t, ~ In c_bs t /\ convert t <> t.
Proof. exists (lit "x{'}y"). exact UnicodeCases.braces_no. Qed.
Print Assumptions C112_braces_refuted.
