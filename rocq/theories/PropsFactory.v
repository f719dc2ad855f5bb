(** Property C24 (TokenFactory).  Vocabulary: FactoryProofs.v ([is_token],
    [dropped], [special_type], [kept], [kept_field], [bibitems]).  [validate]
    (pydantic construction of the class of a type) and [table_cell] are
    arbitrary; [validate] never returns None. *)
From Coq Require Import List NArith ZArith PeanoNat Lia Bool String.
From Verif Require Import PyStr Json BuilderModel BuilderSample FactoryModel FactoryProofs FactoryProofs2 FactoryProofs3.
Import ListNotations.
Notation length := List.length.
Notation concat := List.concat.
Open Scope list_scope.

Theorem C24_strings_unchanged : forall validate table_cell s, factory_create validate table_cell (VStr s) = Ok (VStr s).
Proof. exact create_string. Qed.
Theorem C24_lists_rejected : forall validate table_cell l, factory_create validate table_cell (VList l) = Raise ValueError.
Proof. exact create_list. Qed.
(** None exactly for the tokens without a type, of type "date" or of a type
    that TokenType does not have. *)
Theorem C24_unknown_dropped : forall validate table_cell d, dropped (VDict d) -> factory_create validate table_cell (VDict d) = Ok VNone.
Proof. exact create_dropped. Qed.
Theorem C24_known_not_dropped : forall validate table_cell, (forall t d, validate t d <> Ok VNone) ->
  forall d, ~ dropped (VDict d) -> factory_create validate table_cell (VDict d) <> Ok VNone.
Proof. exact create_not_dropped. Qed.
(** All types but the four with their own [process]: content and title lists
    lose exactly the dropped tokens, in order, at every depth of nested lists;
    the other fields reach the class unchanged. *)
Theorem C24_content_lists_partial : forall validate table_cell, (forall t d, validate t d <> Ok VNone) ->
  forall d t w, lookup k_type d = Some (VStr t) -> ~ dropped (VDict d) -> ~ special_type t ->
  (factory_create validate table_cell (VDict d) = Ok w <->
   exists d1 d2,
     (match lookup k_content d with Some c => exists c', kept_field validate table_cell c c' /\ d1 = set k_content c' d | None => d1 = d end) /\
     (match lookup k_title d with Some c => exists c', kept_field validate table_cell c c' /\ d2 = set k_title c' d1 | None => d2 = d1 end) /\
     validate t d2 = Ok w).
Proof. exact create_ordinary. Qed.
(** A bibliography keeps its bibitems only. *)
Theorem C24_bibliography_content : forall validate table_cell d l w,
  lookup k_type d = Some (VStr (lit "bibliography")) -> lookup k_content d = Some (VList l) ->
  (factory_create validate table_cell (VDict d) = Ok w <->
   exists o, bibitems (factory_create validate table_cell) l o /\ validate (lit "bibliography") [(k_content, VList o)] = Ok w).
Proof. exact create_bibliography. Qed.
(** The document has the created tokens in order, and never a None. *)
Theorem C24_document : forall validate table_cell st tokens st' out, build validate table_cell st tokens = (st', Ok out) ->
  exists organized created, organize_content false st tokens = (st', Ok organized) /\
    Forall2 (fun t w => factory_create validate table_cell t = Ok w) organized created /\ shown created out /\ ~ In VNone out.
Proof. exact document. Qed.
Print Assumptions C24_document.
Example C24_document_case : snd (build record record' cleared [tok "date" []; txt "a"; VStr []; tok "nonsense" []; VStr (lit "b")]) = Ok [txt "a"; VStr (lit "b")].
Proof. exact document_case. Qed.
(** False for math_env (a None stays in the content), for tables (a cell that is
    a dict without type and span disappears) and for the fields of tables
    (labels and styles are not passed on). *)
Theorem C24_math_env_refuted : exists d o,
  factory_create record (fun d => Ok (VDict d)) (VDict d) = Ok (VDict o) /\
  get k_type d = VStr (lit "math_env") /\ get k_content d = VList [tok "date" []; txt "a"] /\ get k_content o = VList [VNone; txt "a"].
Proof. exact math_env_refuted. Qed.
Theorem C24_tabular_cell_refuted : exists d o,
  factory_create record (fun d => Ok (VDict d)) (VDict d) = Ok (VDict o) /\
  get k_content d = VList [VList [VStr (lit "a"); VDict [(k_content, VStr (lit "b"))]; VStr (lit "c")]] /\
  get k_content o = VList [VList [VStr (lit "a"); VStr (lit "c")]].
Proof. exact tabular_cell_refuted. Qed.
Theorem C24_tabular_fields_refuted : forall validate table_cell, exists d d', get k_labels d <> get k_labels d' /\ get k_styles d <> get k_styles d' /\
  get k_content d = get k_content d' /\ get k_content d = VList [VList [VStr (lit "a")]] /\ get k_type d = VStr (lit "tabular") /\
  factory_create validate table_cell (VDict d) = factory_create validate table_cell (VDict d').
Proof. exact tabular_fields_refuted. Qed.

(** Non-vacuity: an environment with a date, an unknown token, a nested list and
    a text. *)
Example C24_case : let d := [(k_type, VStr (lit "environment")); (k_content, VList [tok "date" []; txt "a"; VList [tok "nonsense" []; txt "b"]; VStr (lit "c")])] in
  (forall t d, record t d <> Ok VNone) /\ ~ dropped (VDict d) /\ ~ special_type (lit "environment") /\
  factory_create record record' (VDict d) =
    Ok (VDict [(k_type, VStr (lit "environment")); (k_content, VList [txt "a"; VList [txt "b"]; VStr (lit "c")])]).
Proof.
  split; [intros t d H; discriminate H|]. split; [|split].
  - rewrite <- token_type_spec. intros H. vm_compute in H. discriminate H.
  - intros H. vm_compute in H. repeat (destruct H as [H|H]; [discriminate H|]). exact H.
  - vm_compute. reflexivity.
Qed.
Example C24_bibliography_case : let d := [(k_type, VStr (lit "bibliography")); (k_content, VList [txt "x"; tok "bibitem" []])] in
  factory_create record record' (VDict d) = Ok (VDict [(k_content, VList [tok "bibitem" []])]).
Proof. vm_compute. reflexivity. Qed.

Print Assumptions C24_strings_unchanged.
Print Assumptions C24_lists_rejected.
Print Assumptions C24_unknown_dropped.
Print Assumptions C24_known_not_dropped.
Print Assumptions C24_content_lists_partial.
Print Assumptions C24_bibliography_content.
Print Assumptions C24_math_env_refuted.
Print Assumptions C24_tabular_cell_refuted.
Print Assumptions C24_tabular_fields_refuted.

(** The types with their own [process], exactly (vocabulary: the definitions at
    the top of FactoryProofs3.v).  Equation: the content is passed on unchanged,
    every token of the placeholders is created, in order. *)
Theorem C24_equation : forall validate table_cell d w, lookup k_type d = Some (VStr (lit "equation")) ->
  (factory_create validate table_cell (VDict d) = Ok w <-> exists c p, lookup k_content d = Some c /\ placeholders_of validate table_cell d p /\
   validate (lit "equation") [(k_content, c); (k_display, get k_display d); (k_align, get k_align d); (k_numbering, get k_numbering d);
                              (k_placeholders, p); (k_labels, get k_labels d); (k_styles, get k_styles d)] = Ok w).
Proof. exact create_equation. Qed.
Print Assumptions C24_equation.
Example C24_equation_case :
  factory_create record record' (VDict [(k_type, VStr (lit "equation")); (k_content, VStr (lit "x"));
    (k_placeholders, VDict [(lit "p", VList [txt "a"; tok "date" []; VStr (lit "b")])]); (k_display, VStr (lit "block"))]) =
  Ok (VDict [(k_content, VStr (lit "x")); (k_display, VStr (lit "block")); (k_align, VNone); (k_numbering, VNone);
    (k_placeholders, VDict [(lit "p", VList [txt "a"; VNone; VStr (lit "b")])]); (k_labels, VNone); (k_styles, VNone)]).
Proof. vm_compute. reflexivity. Qed.
(** Theorem environment: every token of content and title is created, and the
    proof. *)
Theorem C24_math_env : forall validate table_cell d w, lookup k_type d = Some (VStr (lit "math_env")) ->
  (factory_create validate table_cell (VDict d) = Ok w <-> exists c t p,
   list_field validate table_cell k_content d (VList []) c /\ list_field validate table_cell k_title d VNone t /\ token_field validate table_cell k_proof d p /\
   validate (lit "math_env") [(k_content, c); (k_labels, get k_labels d); (k_styles, get k_styles d); (k_name, get k_name d);
                              (k_numbering, get k_numbering d); (k_title, t); (k_proof, p)] = Ok w).
Proof. exact create_math_env. Qed.
Print Assumptions C24_math_env.
Example C24_math_env_case :
  factory_create record record' (VDict [(k_type, VStr (lit "math_env")); (k_name, VStr (lit "lemma")); (k_content, VList [txt "a"; tok "date" []]);
    (k_title, VList [txt "t"]); (k_proof, txt "p"); (lit "other", VInt 3)]) =
  Ok (VDict [(k_content, VList [txt "a"; VNone]); (k_labels, VNone); (k_styles, VNone); (k_name, VStr (lit "lemma"));
    (k_numbering, VNone); (k_title, VList [txt "t"]); (k_proof, txt "p")]).
Proof. vm_compute. reflexivity. Qed.
(** Table: row by row and cell by cell, in order; tokens are created at any
    depth of lists in a cell, cells with a span become TableCells with the spans
    (1 when missing), other dictionaries are lost. *)
Theorem C24_tabular : forall validate table_cell d rs w, lookup k_type d = Some (VStr (lit "tabular")) -> lookup k_content d = Some (VList rs) ->
  (factory_create validate table_cell (VDict d) = Ok w <->
   exists o, rows validate table_cell rs o /\ validate (lit "tabular") [(k_content, VList o)] = Ok w).
Proof. exact create_tabular. Qed.
Print Assumptions C24_tabular.
Example C24_tabular_case :
  factory_create record record' (VDict [(k_type, VStr (lit "tabular")); (k_content, VList
    [VList [txt "a"; VStr (lit "b"); VList [txt "c"; VList [tok "date" []; VStr (lit "d")]]];
     VList [VDict [(k_colspan, VInt 2); (k_content, VList [txt "e"; tok "nonsense" []])]; VDict [(k_content, VNone)]; VNone]])]) =
  Ok (VDict [(k_content, VList
    [VList [txt "a"; VStr (lit "b"); VList [txt "c"; VList [VNone; VStr (lit "d")]]];
     VList [VDict [(k_rowspan, VInt 1); (k_colspan, VInt 2); (k_content, VList [txt "e"; VNone])]; VNone]])]).
Proof. vm_compute. reflexivity. Qed.
