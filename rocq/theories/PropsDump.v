(** Property C122: to_json shows every field of every token
    (structure/tokens/{base,document,tabular}.py, tex_reader.py:131-158).  Vocabulary: DumpSpec.v. *)
From Coq Require Import List NArith ZArith PeanoNat Bool String.
From Verif Require Import PyStr Json DumpModel DumpSpec DumpProofs DumpCases JsonTextSpec.
Import ListNotations. Notation length := List.length. Open Scope list_scope.

(** A token nested in any way through contents, cells, proofs and the titles of sections,
    paragraphs and math environments is shown with all its fields. *)
Theorem C122_shown_partial : forall t, nested false t -> shows t (model_dump t).
Proof. exact model_dump_shown. Qed.
Print Assumptions C122_shown_partial.
(** and with nothing else *)
Theorem C122_only_partial : forall t w, nested false t -> shows t w -> w = model_dump t.
Proof. exact dump_only. Qed.
Print Assumptions C122_only_partial.
(** The saved text denotes an object that shows all tokens in order. *)
Theorem C122_text_partial : forall tokens cm, (forall t, In t tokens -> nested false t) ->
  exists values, all_shown tokens values /\ denotes (to_json tokens cm) (VDict [(lit "tokens", VList values); (lit "color_map", VDict cm)]).
Proof. exact to_json_shown. Qed.
Print Assumptions C122_text_partial.
(** In any other field tokens are shown with their type, styles, content and labels only. *)
Theorem C122_other_fields : forall cls f k x u, In (k, x) f -> x <> PNone -> ~ holds_tokens cls k -> no_cells x -> cut x u ->
  exists e w, model_dump (PTok cls f) = VDict e /\ In (k, w) e /\ shows u w.
Proof. exact other_field. Qed.
Print Assumptions C122_other_fields.
(** So the claim fails for an equation in the title of a citation, whose number and display are lost: *)
Theorem C122_title_refuted : ~ shows (cite_token [formula]) (model_dump (cite_token [formula])).
Proof. exact cite_lost. Qed.
Print Assumptions C122_title_refuted.
(** a display equation with a number and an inline one give the same text. *)
Theorem C122_same_refuted : forall cm, to_json [cite_token [formula]] cm = to_json [cite_token [PTok (lit "equation") [(lit "type", PStr (lit "equation")); (lit "styles", PNone); (lit "content", PStr (lit "x")); (lit "labels", PNone);
  (lit "align", PNone); (lit "display", PStr (lit "inline")); (lit "numbering", PNone); (lit "placeholders", PNone)]]] cm.
Proof. exact same_json. Qed.
Print Assumptions C122_same_refuted.
(** Cases: a section with an equation in its title, over a tabular with an empty cell, a cell with
    span and tokens, and a citation with a text as title. *)
Example C122_case : nested false sec /\ model_dump sec =
  VDict [(lit "type", VStr (lit "section")); (lit "styles", VList [VStr (lit "bold")]);
    (lit "content", VList [
       VDict [(lit "type", VStr (lit "tabular")); (lit "content", VList [
         VList [VNone; VDict [(lit "content", VList [shown_text "a"; shown_formula]); (lit "rowspan", VInt 2); (lit "colspan", VInt 1)]];
         VList [shown_formula; VStr (lit "b")]])];
       VDict [(lit "type", VStr (lit "citation")); (lit "content", VList [VStr (lit "key")]); (lit "title", VList [shown_text "see"])]]);
    (lit "title", VList [shown_formula]); (lit "level", VInt 1)].
Proof. exact sec_case. Qed.
Example C122_case_cut : no_cells (PList [formula]) /\ cut (PList [formula]) (PList [PTok (lit "equation") [(lit "type", PStr (lit "equation")); (lit "styles", PNone); (lit "content", PStr (lit "x")); (lit "labels", PNone)]]).
Proof. exact cut_formula. Qed.
