(** Property C121: the saved JSON text says exactly what the answer holds
    (tex_reader.py:131-182).  Vocabulary: JsonTextSpec.v. *)
From Coq Require Import List NArith ZArith PeanoNat Bool String.
From Verif Require Import PyStr Json JsonTextModel JsonTextSpec JsonTextProofs JsonTextProofs2 JsonTextProofs3.
From Verif Require UnicodeModel.
Import ListNotations. Notation length := List.length. Open Scope list_scope.

(** The text written for an answer is a JSON text that denotes an object with the tokens and the colours. *)
Theorem C121_valid : forall tokens cm, denotes (answer_text tokens cm) (VDict [(lit "tokens", VList tokens); (lit "color_map", VDict cm)]).
Proof. exact answer_ok. Qed.
Print Assumptions C121_valid.
(** It denotes nothing else. *)
Theorem C121_only : forall tokens cm v, denotes (answer_text tokens cm) v -> v = VDict [(lit "tokens", VList tokens); (lit "color_map", VDict cm)].
Proof. exact answer_only. Qed.
Print Assumptions C121_only.
(** Hence different answers are different texts. *)
Theorem C121_injective : forall v v', write v = write v' -> v = v'.
Proof. exact write_inj. Qed.
Print Assumptions C121_injective.
(** The text can be saved as UTF-8 exactly if no string of the answer holds half of a surrogate pair. *)
Theorem C121_encodable : forall tokens cm, encodable (answer_text tokens cm) = true <->
  (forall s x, inside s (VList tokens) \/ inside s (VDict cm) -> In x s -> ~ surrogate_code x).
Proof. exact encodable_answer. Qed.
Print Assumptions C121_encodable.
(** Not every answer can be saved: the source text \ud83d\ude00 is turned into two surrogates. *)
Theorem C121_saved_refuted : encodable (answer_text [VDict [(lit "type", VStr (lit "text")); (lit "content", VStr (UnicodeModel.convert (lit "\ud83d\ude00")))]] []) = false.
Proof. exact pair_not_encodable. Qed.
Print Assumptions C121_saved_refuted.
(** Cases: a token with characters that are escaped, a character that is not, and a negative number. *)
Example C121_case : answer_text [VDict [(lit "type", VStr (lit "text")); (lit "content", VStr ([8364; 34; 10]%N ++ lit "\a")); (lit "level", VInt (-12))]] [] =
  lit "{""tokens"": [{""type"": ""text"", ""content"": """ ++ [8364%N] ++ lit "\""\n\\a"", ""level"": -12}], ""color_map"": {}}".
Proof. exact text_case. Qed.
(** The grammar is not the writer in disguise: other texts denote the same data. *)
Example C121_case_other : denotes (lit "{ ""k"":[ 1 ,""\u00E9\/""]}") (VDict [(lit "k", VList [VInt 1; VStr [233%N; 47%N]])]) /\
  write (VDict [(lit "k", VList [VInt 1; VStr [233%N; 47%N]])]) <> lit "{ ""k"":[ 1 ,""\u00E9\/""]}".
Proof. exact other_text. Qed.
