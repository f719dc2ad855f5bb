(** C113-C115: reading a file as text. *)
From Coq Require Import List NArith String.
From Verif Require Import PyStr CodecModel CodecSpec.
From Verif Require CodecProofs CodecCases.
Import ListNotations.
Open Scope list_scope.

(** C113: a file that is some text in UTF-8 and that the detector takes for UTF-8, for ASCII or for nothing in
    particular is read as that text, with every line ended by a line feed. *)
Theorem C113_utf8 : forall chardet other_codec t s, Forall scalar t -> sample (encode t) s -> takes_for_utf8 (chardet s) ->
  exists u, unix t u /\ read_file chardet other_codec (encode t) = Some u.
Proof. exact CodecCases.utf8_file. Qed.
Print Assumptions C113_utf8.
Theorem C113_same : forall chardet other_codec t s, Forall scalar t -> ~ In 13%N t -> sample (encode t) s -> takes_for_utf8 (chardet s) ->
  read_file chardet other_codec (encode t) = Some t.
Proof. exact CodecCases.utf8_same. Qed.
Print Assumptions C113_same.
Example C113_case : Forall scalar CodecCases.greek /\ unix CodecCases.greek [945%N; 10%N; 8364%N; 119912%N; 10%N] /\
  encode CodecCases.greek = [206; 177; 13; 10; 226; 130; 172; 240; 157; 145; 168; 13]%N /\ sample (encode CodecCases.greek) (encode CodecCases.greek).
Proof. exact CodecCases.greek_ok. Qed.

(** C114: in a file taken for UTF-8, bytes of another encoding become one replacement character each, and
    every character around them is read. *)
Theorem C114_damaged : forall chardet other_codec l s, damaged l -> sample (raw l) s -> takes_for_utf8 (chardet s) ->
  exists u, unix (seen l) u /\ read_file chardet other_codec (raw l) = Some u.
Proof. exact CodecCases.damaged_file. Qed.
Print Assumptions C114_damaged.
Example C114_case : damaged CodecCases.cafe /\ raw CodecCases.cafe = [99; 233; 32; 195; 169]%N /\ seen CodecCases.cafe = [99; 65533; 32; 233]%N.
Proof. exact CodecCases.cafe_ok. Qed.
(** A file in another encoding whose first ten thousand bytes are ASCII loses its characters: two different files are read as the same text. *)
Theorem C114_lost_refuted : forall chardet other_codec, chardet CodecCases.many = (Some (lit "ascii"), true) ->
  exists a b, a <> b /\ read_file chardet other_codec a = read_file chardet other_codec b /\ read_file chardet other_codec a <> None.
Proof. exact CodecCases.lost. Qed.
Print Assumptions C114_lost_refuted.

(** C115: reading never fails when Python has the codec that the detector names; a file taken for ISO-8859-1 has
    one character for each byte. *)
Theorem C115_never_fails : forall chardet other_codec data,
  (forall s e, sample data s -> chardet s = (Some e, true) ->
     e = lit "ascii" \/ e = lit "utf-8" \/ e = lit "ISO-8859-1" \/ e = lit "Windows-1252" \/ other_codec e <> None) ->
  exists t, read_file chardet other_codec data = Some t.
Proof. exact CodecProofs.read_some. Qed.
Print Assumptions C115_never_fails.
Theorem C115_latin : forall chardet other_codec data s, sample data s -> s <> [] -> chardet s = (Some (lit "ISO-8859-1"), true) ->
  exists u, unix data u /\ read_file chardet other_codec data = Some u.
Proof. exact CodecCases.latin_file. Qed.
Print Assumptions C115_latin.
Example C115_case : read_file (CodecCases.says "Windows-1252") CodecCases.no_codec [233%N; 32%N; 128%N] = Some [233%N; 32%N; 8364%N].
Proof. exact (proj2 CodecCases.western_lost). Qed.
(** An answer of the detector that is no codec of Python stops the reading. *)
Theorem C115_codec_refuted : forall chardet other_codec, chardet [196%N; 163%N] = (Some (lit "EUC-TW"), true) -> other_codec (lit "EUC-TW") = None ->
  read_file chardet other_codec [196%N; 163%N] = None.
Proof. exact CodecCases.unknown_codec. Qed.
Print Assumptions C115_codec_refuted.
(** One byte that cp1252 does not define costs every other accented character of the file. *)
Theorem C115_western_refuted : read_file (CodecCases.says "Windows-1252") CodecCases.no_codec [233%N; 32%N; 129%N] = Some [65533%N; 32%N; 65533%N].
Proof. exact (proj1 CodecCases.western_lost). Qed.
Print Assumptions C115_western_refuted.
