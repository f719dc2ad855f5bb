(** Vocabulary for C106: what of a preamble is kept. *)
From Coq Require Import List NArith ZArith PeanoNat Bool String.
From Verif Require Import PyStr DelimSpec CommandSpec DefModel DefSpec.
Import ListNotations. Notation length := List.length. Notation concat := List.concat. Open Scope list_scope.

(** a backslash and a letter or @ *)
Definition begins_command (t : str) : Prop := exists x r, t = c_bs :: x :: r /\ (is_letter x \/ x = 64%N).
Definition letters (s : str) : Prop := s <> [] /\ forall x, In x s -> is_letter x.
(** \usepackage[options]{names}, \RequirePackage likewise, and every other command that begins with \use *)
Inductive use_command : str -> Prop :=
| uc_package : use_command (lit "\usepackage")
| uc_require : use_command (lit "\RequirePackage")
| uc_other : forall s, letters s -> use_command (lit "\use" ++ s).
Inductive use_line : str -> Prop :=
| ul_intro : forall word g1 options g2 names, use_command word -> blank g1 -> blank g2 -> (forall s, options = Some s -> ~ In c_rk s) ->
    names <> [] -> ~ In c_rb names -> use_line (word ++ g1 ++ optional options ++ g2 ++ braced names).
Inductive class_line : str -> Prop :=
| cl_intro : forall g1 options g2 names, blank g1 -> blank g2 -> (forall s, options = Some s -> ~ In c_rk s) ->
    names <> [] -> ~ In c_rb names -> class_line (lit "\documentclass" ++ g1 ++ optional options ++ g2 ++ braced names).
(** [t] begins with \begin{document}, with a \documentclass line *)
Definition document_begins (t : str) : Prop := exists g r, blank g /\ t = lit "\begin" ++ g ++ lit "{document}" ++ r.
Definition class_begins (t : str) : Prop := exists c r, class_line c /\ t = c ++ r.
(** [a] is what stands before the first place of [t] where [P] holds *)
Definition before_first (P : str -> Prop) (t a : str) : Prop := exists b, t = a ++ b /\ P b /\ forall a' b', t = a' ++ b' -> P b' -> length a <= length a'.
Definition nowhere (P : str -> Prop) (t : str) : Prop := forall a b, t = a ++ b -> ~ P b.
(** the preamble: the text before \begin{document}, without blanks at its ends, and of that what stands behind \documentclass *)
Inductive preamble_text (t : str) : str -> Prop :=
| pt_intro : forall before body, before_first document_begins t before \/ nowhere document_begins t /\ before = t ->
    (exists a c, before_first class_begins (strip before) a /\ class_line c /\ strip before = a ++ c ++ body) \/ nowhere class_begins (strip before) /\ body = strip before ->
    preamble_text t body.
Section Any.
Variable u ualpha ualnum : ch -> bool.
(** the word is over: no word character follows *)
Definition over (rest : str) : Prop := forall x r, rest = x :: r -> w u x = false.
(** [p] is the text from \makeatletter to the first \makeatother *)
Definition at_block_text (rest p : str) : Prop :=
  (exists r, rest = lit "\makeatletter" ++ r /\ over r) /\
  (exists q r, p = q ++ lit "\makeatother" /\ rest = p ++ r /\ over r /\
    forall q' r', rest = q' ++ lit "\makeatother" ++ r' -> over r' -> length q <= length q').
(** [p], at the beginning of [rest], is kept *)
Definition kept (rest p : str) : Prop := begins_command rest /\ (exists r, rest = p ++ r) /\ p <> [] /\
  (use_line p \/ at_block_text rest p \/ exists tok, handle u ualpha ualnum rest = Ok (tok, Z.of_nat (length p))).
(** reading from left to right: what can be kept is kept, the other characters are passed over *)
Inductive reads : str -> list str -> Prop :=
| rd_end : reads [] []
| rd_keep : forall p r ps, kept (p ++ r) p -> reads r ps -> reads (p ++ r) (p :: ps)
| rd_pass : forall x r ps, (forall p, ~ kept (x :: r) p) -> reads r ps -> reads (x :: r) ps.
End Any.

(** the text of the output *)
Definition lines (ps : list str) : str := concat (map (fun p => p ++ [10%N]) ps).

(** a preamble as people write them: [item source follow] is an entry whose text must be followed as [follow] says *)
Inductive item : str -> (str -> Prop) -> Prop :=
| i_use : forall s, use_line s -> item s (fun _ => True)
| i_declares : forall s tok follow, declares s tok follow -> item s follow
| i_skipped : forall s, skipped s -> item s (fun _ => True)
| i_newcommand : forall d, well_written d -> item (macro_text d) (fun _ => True)
| i_def : forall keyword gap name gap2 k body, In keyword def_words -> blank gap -> blank gap2 -> def_name name -> good_body body ->
    item (lit keyword ++ gap ++ [c_bs] ++ name ++ gap2 ++ param_text k ++ braced body) (fun _ => True)
| i_let : forall gap name eq old, blank gap -> plain_name name -> word old -> item (let_text gap name eq old) let_stop.
(** entries with text without commands between them *)
Inductive written : str -> list str -> Prop :=
| wr_end : forall tail, ~ In c_bs tail -> written tail []
| wr_item : forall gap source follow rest items, ~ In c_bs gap -> item source follow -> follow rest -> written rest items ->
    written (gap ++ source ++ rest) (source :: items).
