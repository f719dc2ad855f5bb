(** Properties C25, C29, C42, C45, C46: tables and placeholders.
    Vocabulary: TableSpec.v, PlaceSpec.v ([occurs] is in RegexLocal.v: one text
    is a substring of another). *)
From Coq Require Import List NArith ZArith PeanoNat Lia Bool String.
From Verif Require Import PyStr Regex RegexLocal Json TexUtilsModel DelimSpec DelimProofs BuilderModel FactoryModel TableModel TableSpec TableProofs TableProofs2
  Placeholder PlaceModel PlaceSpec PlaceProofs PlaceProofs2 PlaceProofs3 TableCases.
Import ListNotations.
Notation length := List.length.
Notation concat := List.concat.
Open Scope list_scope.

(** * C25 *)
(** The text is cut exactly at the delimiters outside braces and after an even
    number of backslashes, every brace being counted; rows that are blank are
    dropped, cells are kept. *)
Theorem C25_split_at_separators_partial : forall d, table_delimiter d -> forall content, exists raw, pieces d content raw /\
  split_latex_content content d false = map strip raw /\
  split_latex_content content d true = filter (fun p => negb (nilb p)) (map strip raw).
Proof. exact split_pieces. Qed.
Print Assumptions C25_split_at_separators_partial.
Theorem C25_pieces_unique : forall d, table_delimiter d -> forall content raw raw', pieces d content raw -> pieces d content raw' -> raw = raw'.
Proof. exact pieces_fun. Qed.
Print Assumptions C25_pieces_unique.
(** Braces are counted even when escaped: an & outside every group is not a
    separator after \{. *)
Theorem C25_escaped_braces_refuted : exists before after, closes_after before /\ balanced c_lb c_rb (marks before) /\
  length (split_latex_content (before ++ [c_amp] ++ after) [c_amp] false) = 1.
Proof. exact c25_escaped. Qed.
Print Assumptions C25_escaped_braces_refuted.
Example C25_case : split_latex_content (lit "a \& {b & c} & d\\& e") [c_amp] false = [lit "a \& {b & c}"; lit "d\\"; lit "e"] /\ table_delimiter [c_amp].
Proof. split; [reflexivity|left; reflexivity]. Qed.
Example C25_case_rows : split_latex_content (lit "a & b \\ \\ {c \\ d} \\") [c_bs; c_bs] true = [lit "a & b"; lit "{c \\ d}"].
Proof. reflexivity. Qed.

(** * C45: the table grid *)
Theorem C45_grid_and_spans_partial : forall parser text rows, table_rows parser text rows ->
  exists out, parse_tabular parser text = Ok out /\ without_empty_ends rows out.
Proof. exact parse_tabular_grid. Qed.
Print Assumptions C45_grid_and_spans_partial.
(** A makecell inside a span takes the span away, text beside a makecell or a
    span is lost, and an unclosed makecell raises. *)
Theorem C45_span_around_makecell_refuted : parse_tabular VStr (lit "\multicolumn{2}{c}{\makecell{A}} & b") = Ok [[VStr (lit "A"); VStr (lit "b")]].
Proof. exact c45_span_lost. Qed.
Print Assumptions C45_span_around_makecell_refuted.
Theorem C45_text_beside_refuted : parse_tabular VStr (lit "x \makecell{A} y & z \multicolumn{2}{c}{B}") =
  Ok [[VStr (lit "A"); span_dict (VStr (lit "B")) 1 2]].
Proof. exact c45_text_lost. Qed.
Print Assumptions C45_text_beside_refuted.
Theorem C45_unclosed_makecell_raises_refuted : parse_tabular VStr (lit "\makecell{a\}") = Raise TypeError.
Proof. exact c45_raises. Qed.
Print Assumptions C45_unclosed_makecell_raises_refuted.
Example C45_case : table_rows VStr (lit "A & \multicolumn{2}{c}{B} \\") [[VStr (lit "A"); span_dict (VStr (lit "B")) 1 2]] /\
  parse_tabular VStr (lit "A & \multicolumn{2}{c}{B} \\") = Ok [[VStr (lit "A"); span_dict (VStr (lit "B")) 1 2]].
Proof. exact c45_case. Qed.

(** * C29 *)
Theorem C29_verbatim_round_trip : forall content out blocks, ~ occurs (lit "VERBATIM_BLOCK") content ->
  extract_verbatim_blocks content = (out, blocks) -> restore_placeholder_blocks out blocks = content.
Proof. exact verbatim_round_trip. Qed.
Print Assumptions C29_verbatim_round_trip.
(** It is not enough that no complete placeholder occurs in the text. *)
Theorem C29_without_that_word_refuted : exists content out blocks,
  (forall i, ~ occurs (verbatim_key i) content) /\ extract_verbatim_blocks content = (out, blocks) /\ restore_placeholder_blocks out blocks <> content.
Proof. exact c29_refuted. Qed.
Print Assumptions C29_without_that_word_refuted.
Example C29_case : extract_verbatim_blocks (lit "a \verb|x  y| b \begin{verbatim} c \end{verbatim}") =
  (lit "a __VERBATIM_BLOCK__0__ b __VERBATIM_BLOCK__1__",
   [(lit "__VERBATIM_BLOCK__0__", lit "\verb|x  y|"); (lit "__VERBATIM_BLOCK__1__", lit "\begin{verbatim} c \end{verbatim}")]).
Proof. vm_compute. reflexivity. Qed.

(** * C46: table structures *)
(** Extraction ends for every text; restoration undoes it when the word
    TABLE_STRUCT is neither in the text nor in a stored structure (no structure
    contains another one's key). *)
Theorem C46_structures_round_trip_partial : forall content, exists out refs, extract_table_structures content = Some (out, refs) /\
  (~ occurs (lit "TABLE_STRUCT") content -> (forall k s, In (k, s) refs -> ~ occurs (lit "TABLE_STRUCT") s) ->
   restore_placeholder_blocks out refs = content).
Proof. exact structures_round_trip. Qed.
Print Assumptions C46_structures_round_trip_partial.
(** A multicolumn inside a multirow is not restored. *)
Theorem C46_nested_structures_refuted : exists content out refs, ~ occurs (lit "TABLE_STRUCT") content /\
  extract_table_structures content = Some (out, refs) /\ occurs (lit "TABLE_STRUCT") (restore_placeholder_blocks out refs).
Proof. exact c46_refuted. Qed.
Print Assumptions C46_nested_structures_refuted.
Example C46_case : extract_table_structures (lit "a & \multicolumn{2}{c}{B} & \multirow{2}{*}{C}") =
  Some (lit "a & `|TABLE_STRUCT_0|` & `|TABLE_STRUCT_1|`",
        [(lit "`|TABLE_STRUCT_0|`", lit "\multicolumn{2}{c}{B}"); (lit "`|TABLE_STRUCT_1|`", lit "\multirow{2}{*}{C}")]).
Proof. vm_compute. reflexivity. Qed.

(** * C42 *)
Theorem C42_flatten_round_trip : forall tokens, Forall well_formed tokens -> runs_without (lit "|REF_") [] tokens ->
  exists text refs, flatten_tokens tokens = Ok (text, refs) /\ text_merged [] tokens (reference_chunks refs text).
Proof. exact flatten_round_trip. Qed.
Print Assumptions C42_flatten_round_trip.
Theorem C42_one_key_per_token : forall tokens text refs, flatten_tokens tokens = Ok (text, refs) -> NoDup (map fst refs) /\
  map snd refs = filter (fun t => negb (match lookup k_type t, lookup k_content t, lookup k_styles t with Some ty, Some (VStr _), None => is_str ty "text" | _, _, _ => false end)) tokens.
Proof. exact flatten_keys_distinct. Qed.
Print Assumptions C42_one_key_per_token.
Example C42_case : Forall well_formed c42_tokens /\ runs_without (lit "|REF_") [] c42_tokens /\
  exists refs, flatten_tokens c42_tokens = Ok (lit "x & `|REF_1|`y`|REF_2|`", refs).
Proof. exact c42_case. Qed.
