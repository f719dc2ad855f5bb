{
 "claims": [
  {
   "property": "C01",
   "status": "proved",
   "theorems": [
    "C01_extraction_is_one_balanced_group",
    "C01_group_is_unique"
   ],
   "note": ""
  },
  {
   "property": "C02",
   "status": "proved",
   "theorems": [
    "C02_failure_iff_no_group",
    "C02_only_two_outcomes",
    "C02_no_group_meaning"
   ],
   "note": ""
  },
  {
   "property": "C03",
   "status": "proved",
   "theorems": [
    "C03_block_sequences_exact_and_greedy",
    "C03_consumed_prefix_rendering"
   ],
   "note": ""
  },
  {
   "property": "C04",
   "status": "partial",
   "theorems": [
    "C04_end_position_refuted",
    "C04_arguments_partial"
   ],
   "note": "Refuted: with an optional and a required argument the end position counts from the end of the optional ones (extract_args(\"[a]{b}\",1,1) returns 3, not 6). The arguments themselves are proved right, and the position when no optional argument is read or none is required."
  },
  {
   "property": "C05",
   "status": "proved",
   "theorems": [
    "C05_delimited_args",
    "C05_consumed_prefix_rendering"
   ],
   "note": ""
  },
  {
   "property": "C06",
   "status": "proved",
   "theorems": [
    "C06_balance_decided"
   ],
   "note": ""
  },
  {
   "property": "C07",
   "status": "proved",
   "theorems": [
    "C07_equation_content"
   ],
   "note": ""
  },
  {
   "property": "C08",
   "status": "proved",
   "theorems": [
    "C08_environment_block",
    "C08_closing_marker_is_unique",
    "C08_nested_pattern"
   ],
   "note": ""
  },
  {
   "property": "C09",
   "status": "proved",
   "theorems": [
    "C09_comments_removed_per_line",
    "C09_spec_is_functional"
   ],
   "note": ""
  },
  {
   "property": "C10",
   "status": "partial",
   "theorems": [
    "C10_no_comment_left",
    "C10_idempotent_refuted",
    "C10_idempotent_partial",
    "C10_idempotent_without_final_newline"
   ],
   "note": "Refuted: \"a\\n%x\" becomes \"a\\n\" and then \"a\". Proved: no comment is left; a second pass removes at most one final newline."
  },
  {
   "property": "C100",
   "status": "partial",
   "theorems": [
    "C100_removed",
    "C100_new_line",
    "C100_blank",
    "C100_longer",
    "C100_prefix_refuted",
    "C100_protect_refuted",
    "C100_labelsep_refuted",
    "C100_backslash_refuted",
    "C100_year_refuted"
   ],
   "note": "Exact for 79 commands that disappear, 8 that become a new line and 7 that become a blank, before every text that does not continue the name. Refuted: \\quadrant and \\spacefactor are cut in two, \\protect and \\labelsep take text away, \\textbackslash gives two backslashes, a year before \\baselineskip is lost."
  },
  {
   "property": "C101",
   "status": "partial",
   "theorems": [
    "C101_group",
    "C101_unclosed",
    "C101_ensuremath",
    "C101_hphantom",
    "C101_argument",
    "C101_space",
    "C101_number",
    "C101_rounded",
    "C101_nested_refuted",
    "C101_glue_refuted",
    "C101_ensuremath_refuted"
   ],
   "note": "Exact for the listed commands and every argument; rounding is abstract. Refuted: lengths with nested groups or stretch leave text behind, an unclosed \\ensuremath gives a formula without content."
  },
  {
   "property": "C102",
   "status": "partial",
   "theorems": [
    "C102_total",
    "C102_no_exception",
    "C102_no_command",
    "C102_not_accepted",
    "C102_negative_refuted",
    "C102_raise_refuted"
   ],
   "note": "Termination and bounds for every text. Refuted: \\@namedef without a body returns a negative position, and \\def\\\\#1{x} raises IndexError; no exception without a # in the text."
  },
  {
   "property": "C103",
   "status": "partial",
   "theorems": [
    "C103_declared",
    "C103_skipped",
    "C103_title_refuted",
    "C103_theorem_blank_refuted",
    "C103_length_blank_refuted",
    "C103_setlength_blank_refuted",
    "C103_register_refuted"
   ],
   "note": "Exact for 18 ways of writing a declaration. Refuted: a title with a group is cut, blanks before arguments of \\newtheorem, \\newlength and \\setlength, and \\newcount takes the following text into the name."
  },
  {
   "property": "C104",
   "status": "partial",
   "theorems": [
    "C104_expand",
    "C104_csname",
    "C104_namedef",
    "C104_let",
    "C104_let_both",
    "C104_let_refuted",
    "C104_let_end_refuted",
    "C104_delimiter_refuted",
    "C104_escape_refuted",
    "C104_blank_refuted"
   ],
   "note": "Proved for names written as one word between spaces; refuted for \\let with a built name and no =, for two built names at the end of the text, for a delimiter behind \\endcsname, for characters that mean something in a regular expression, and for a blank behind \\expandafter."
  },
  {
   "property": "C105",
   "status": "partial",
   "theorems": [
    "C105_def",
    "C105_newcommand",
    "C105_let",
    "C105_alphabet",
    "C105_name_refuted"
   ],
   "note": "Proved for plain names; refuted for a name that begins with expandafter, noexpand or csname."
  },
  {
   "property": "C106",
   "status": "partial",
   "theorems": [
    "C106_total",
    "C106_reads",
    "C106_one_text",
    "C106_one_list",
    "C106_written",
    "C106_inner_refuted",
    "C106_options_refuted",
    "C106_before_refuted",
    "C106_expand_refuted",
    "C106_raise_refuted"
   ],
   "note": "Exact for every file: the output is the one list that reading from left to right keeps. Refuted: definitions inside the arguments of other commands come out, options with brackets lose the package line, lines before \\documentclass are lost, a blank behind \\expandafter cuts the definition in two, an exception is possible."
  },
  {
   "property": "C107",
   "status": "partial",
   "theorems": [
    "C107_title_which",
    "C107_title_taken",
    "C107_title_bounds",
    "C107_title_other",
    "C107_picture",
    "C107_overpic",
    "C107_overpic_empty",
    "C107_library",
    "C107_library_bounds",
    "C107_picture_open_refuted",
    "C107_overpic_open_refuted"
   ],
   "note": "Proved for every text; refuted for environments that are not closed: the handlers accept them and answer with position -1."
  },
  {
   "property": "C108",
   "status": "partial",
   "theorems": [
    "C108_entries",
    "C108_corporate_refuted",
    "C108_options_refuted",
    "C108_type_refuted",
    "C108_initial_refuted",
    "C108_names_refuted"
   ],
   "note": "Exact for every file of entries that say what they say in the grammar of CompSpec.v. Refuted: an organisation as author and the author blocks of newer biber versions are dropped, a field called type replaces the entry type, a given name beginning with a group is printed as an unbalanced brace, one malformed list of names drops its whole entry."
  },
  {
   "property": "C109",
   "status": "partial",
   "theorems": [
    "C109_references",
    "C109_name_refuted"
   ],
   "note": "Exact for readable entries (words as type and field names, no @); refuted for a field name that is not one word (part-title becomes title)."
  },
  {
   "property": "C11",
   "status": "partial",
   "theorems": [
    "C11_detectors_agree_refuted",
    "C11_reported_comments_are_comments_partial",
    "C11_comments_are_reported_without_double_backslash_partial"
   ],
   "note": "Refuted on \\\\\\\\%: has_comment_on_sameline looks at one preceding backslash only. Proved: sound always, complete when the line has no double backslash."
  },
  {
   "property": "C110",
   "status": "partial",
   "theorems": [
    "C110_converted",
    "C110_covered",
    "C110_every_key_refuted",
    "C110_once_refuted",
    "C110_line_break_refuted"
   ],
   "note": "Proved for the 2024 keys no sooner key gets in the way of, in every text of recognisable pieces; refuted for keys with an inner command, for results that join the text behind them, and for line breaks."
  },
  {
   "property": "C111",
   "status": "partial",
   "theorems": [
    "C111_sequence",
    "C111_four_digits_refuted",
    "C111_pair_refuted",
    "C111_beyond_refuted"
   ],
   "note": "Proved for sequences whose character is not a backslash or a brace; refuted for four digits followed by letters a to f or digits, for surrogate pairs and for numbers beyond Unicode."
  },
  {
   "property": "C112",
   "status": "partial",
   "theorems": [
    "C112_plain",
    "C112_unknown",
    "C112_braces_refuted"
   ],
   "note": "Proved for every text with no backslash and no opening brace and for every unlisted command; refuted for opening braces."
  },
  {
   "property": "C113",
   "status": "proved",
   "theorems": [
    "C113_utf8",
    "C113_same"
   ],
   "note": "The detector is abstract: any function of the first ten thousand bytes. Universal newlines are modelled."
  },
  {
   "property": "C114",
   "status": "partial",
   "theorems": [
    "C114_damaged",
    "C114_lost_refuted"
   ],
   "note": "Proved for stray bytes that no UTF-8 sequence absorbs; refuted as far as the lost characters go: two different files are read as the same text."
  },
  {
   "property": "C115",
   "status": "partial",
   "theorems": [
    "C115_never_fails",
    "C115_latin",
    "C115_codec_refuted",
    "C115_western_refuted"
   ],
   "note": "Proved when the detector names a codec that Python has; refuted when it does not (EUC-TW), and for one undefined cp1252 byte, which costs every accented character of the file."
  },
  {
   "property": "C116",
   "status": "partial",
   "theorems": [
    "C116_ref",
    "C116_hyperref",
    "C116_href",
    "C116_url",
    "C116_doi",
    "C116_address_refuted"
   ],
   "note": "Proved for every balanced argument (the address of \\href without a closing brace inside, otherwise refuted: nothing is read)."
  },
  {
   "property": "C117",
   "status": "partial",
   "theorems": [
    "C117_footnote",
    "C117_footnotetext",
    "C117_mark",
    "C117_bare_mark",
    "C117_caption",
    "C117_captionof",
    "C117_blank_refuted"
   ],
   "note": "Proved for every balanced text and every optional argument without a closing bracket; refuted for a blank before the mark of a footnote and for brackets inside the short caption."
  },
  {
   "property": "C118",
   "status": "partial",
   "theorems": [
    "C118_graphics",
    "C118_pdf",
    "C118_options_refuted"
   ],
   "note": "Proved with the page that the first page= with a digit names; refuted for other keys ending in page, for blanks among the pages and for starred graphics."
  },
  {
   "property": "C119",
   "status": "partial",
   "theorems": [
    "C119_aliases",
    "C119_isolated",
    "C119_cleared",
    "C119_shared_refuted"
   ],
   "note": "Proved for every history of a cleared handler and every interleaving; refuted for handlers that were never cleared, which share a class-level dictionary."
  },
  {
   "property": "C12",
   "status": "partial",
   "theorems": [
    "C12_nonspace_kept_refuted",
    "C12_nonspace_kept_partial",
    "C12_normalize_partial",
    "C12_respaced_function"
   ],
   "note": "Refuted for texts containing the internal marker <PARA_BREAK> (it becomes a newline). For every other text the exact result is proved."
  },
  {
   "property": "C120",
   "status": "partial",
   "theorems": [
    "C120_part",
    "C120_title",
    "C120_file",
    "C120_dropped",
    "C120_pdfbookmark",
    "C120_appendix",
    "C120_input_refuted"
   ],
   "note": "Proved for every balanced argument; refuted for \\input without braces and for several bibliography files in one argument."
  },
  {
   "property": "C121",
   "status": "partial",
   "theorems": [
    "C121_valid",
    "C121_only",
    "C121_injective",
    "C121_encodable",
    "C121_saved_refuted"
   ],
   "note": "Valid, unambiguous and injective for every answer; the last clause is refuted: the source \\ud83d\\ude00 gives surrogates that UTF-8 cannot encode, and C121_encodable says exactly when saving is possible."
  },
  {
   "property": "C122",
   "status": "partial",
   "theorems": [
    "C122_shown_partial",
    "C122_only_partial",
    "C122_text_partial",
    "C122_other_fields",
    "C122_title_refuted",
    "C122_same_refuted"
   ],
   "note": "Proved for tokens nested through contents, cells, proofs and the titles of sections, paragraphs and math environments; for tokens in other fields (titles of citations, references, links, items; placeholders of equations) C122_other_fields says what is shown and the refuted theorems that number and display of an equation there are lost. Trusted: pydantic v2 serialises an instance of a subclass by the annotated class."
  },
  {
   "property": "C123",
   "status": "partial",
   "theorems": [
    "C123_forgets_partial",
    "C123_left_clean_partial",
    "C123_others",
    "C123_alias_refuted"
   ],
   "note": "Proved for every history and every computation whose course does not depend on the dictionaries inside the two equation handlers that nothing clears; refuted for \\citetalias inside formulas (class-level dictionary shared by all documents). What parsing does is an arbitrary reading and writing of the listed attributes; that the list is complete is part of the trusted base."
  },
  {
   "property": "C124",
   "status": "partial",
   "theorems": [
    "C124_file",
    "C124_console",
    "C124_file_kept",
    "C124_redirect_refuted"
   ],
   "note": "Lines, order and files proved for every history of one logger; the last clause is refuted: the formatter of the stderr handler asks whether stdout is a terminal. Templates with %s and %% only (those the code uses); the reports of logging errors and the lastResort handler are left out."
  },
  {
   "property": "C13",
   "status": "proved",
   "theorems": [
    "C13_words_joined",
    "C13_spec_is_functional",
    "C13_one_trimmed_line",
    "C13_no_break_command_left",
    "C13_idempotent"
   ],
   "note": ""
  },
  {
   "property": "C14",
   "status": "proved",
   "theorems": [
    "C14_reading_exists_and_is_unique",
    "C14_simultaneous_substitution"
   ],
   "note": "For definitions with no parameter numbered 0 (see C15)."
  },
  {
   "property": "C15",
   "status": "partial",
   "theorems": [
    "C15_zero_parameter_refuted"
   ],
   "note": "Refuted: #0 is replaced by the last argument (args[-1])."
  },
  {
   "property": "C16",
   "status": "proved",
   "theorems": [
    "C16_flatten_is_the_leaves_in_order",
    "C16_flatten_idempotent"
   ],
   "note": ""
  },
  {
   "property": "C17",
   "status": "proved",
   "theorems": [
    "C17_roman_numeral",
    "C17_roman_denotes_its_number",
    "C17_roman_injective"
   ],
   "note": ""
  },
  {
   "property": "C18",
   "status": "proved",
   "theorems": [
    "C18_section_numbers"
   ],
   "note": "For documents (sections carry an int level, numbered ones 1..3; fewer than a million tokens)."
  },
  {
   "property": "C19",
   "status": "partial",
   "theorems": [
    "C19_every_level_refuted",
    "C19_levels_one_to_three_partial"
   ],
   "note": "Refuted: level 0 (\\part) and level 4 raise KeyError. Proved for levels 1 to 3."
  },
  {
   "property": "C20",
   "status": "proved",
   "theorems": [
    "C20_numbered_in_order",
    "C20_theorems_per_section",
    "C20_unnumbered_get_none"
   ],
   "note": "With merge_proof_environments=False (the default)."
  },
  {
   "property": "C21",
   "status": "partial",
   "theorems": [
    "C21_document_order_kept",
    "C21_every_token_kept",
    "C21_preorder_is_functional",
    "C21_walk_is_functional",
    "C21_order_refuted",
    "C21_section_content_refuted"
   ],
   "note": "Refuted for content after a bibliography that follows an appendix, and for section tokens that already have content. Proved for all other documents."
  },
  {
   "property": "C22",
   "status": "proved",
   "theorems": [
    "C22_history_independent"
   ],
   "note": ""
  },
  {
   "property": "C23",
   "status": "proved",
   "theorems": [
    "C23_texts_joined",
    "C23_joined_is_functional",
    "C23_joined_meaning",
    "C23_whole_tree"
   ],
   "note": ""
  },
  {
   "property": "C24",
   "status": "partial",
   "theorems": [
    "C24_strings_unchanged",
    "C24_document",
    "C24_lists_rejected",
    "C24_unknown_dropped",
    "C24_known_not_dropped",
    "C24_content_lists_partial",
    "C24_bibliography_content",
    "C24_equation",
    "C24_math_env",
    "C24_tabular",
    "C24_math_env_refuted",
    "C24_tabular_cell_refuted",
    "C24_tabular_fields_refuted"
   ],
   "note": "The claim holds for all types but tabular, equation and math_env, whose own process methods behave differently: math_env keeps None for dropped tokens, tabular drops dict cells without span and its labels and styles (refutations). What these three types do instead is proved exactly (C24_equation, C24_math_env, C24_tabular)."
  },
  {
   "property": "C25",
   "status": "partial",
   "theorems": [
    "C25_split_at_separators_partial",
    "C25_pieces_unique",
    "C25_escaped_braces_refuted"
   ],
   "note": "Proved with every brace counted; refuted for escaped braces: \\{ and \\} change the nesting level, so a later & is not a separator."
  },
  {
   "property": "C26",
   "status": "partial",
   "theorems": [
    "C26_add_token",
    "C26_no_adjacent_plain",
    "C26_strings_concatenate",
    "C26_lists_refuted",
    "C26_labels_refuted"
   ],
   "note": "All sequences of calls with strings, dicts, None: maximal runs of plain text become one token, the rest is kept in order. Refuted: lists are appended without merging; fields other than content of a merged text (labels) are lost."
  },
  {
   "property": "C27",
   "status": "proved",
   "theorems": [
    "C27_first_occurrences",
    "C27_files",
    "C27_unique"
   ],
   "note": "For every bib parser and content parser, including failing ones; the specification determines the result."
  },
  {
   "property": "C28",
   "status": "proved",
   "theorems": [
    "C28_terminates"
   ],
   "note": "Every content, every \\w class, every lower(); conversion of compiled bibliographies is a total function parameter."
  },
  {
   "property": "C29",
   "status": "proved",
   "theorems": [
    "C29_verbatim_round_trip",
    "C29_without_that_word_refuted"
   ],
   "note": ""
  },
  {
   "property": "C30",
   "status": "proved",
   "theorems": [
    "C30_booleans",
    "C30_conditionals"
   ],
   "note": ""
  },
  {
   "property": "C31",
   "status": "proved",
   "theorems": [
    "C31_accepted_exactly",
    "C31_accepted_stays_below",
    "C31_safe_names_are_kept_refuted"
   ],
   "note": "Exact characterisation of the filter for every absolute normalised temporary directory, with posixpath modelled. The converse (harmless names are kept) is refuted: fig..1.tex is skipped."
  },
  {
   "property": "C32",
   "status": "partial",
   "theorems": [
    "C32_tar_refuted",
    "C32_tar_relative_link_refuted",
    "C32_tar_partial",
    "C32_zip"
   ],
   "note": "Proved for every zip archive and for every tar archive whose links are relative and do not go up; refuted in general: a symbolic link member followed by a member below it writes outside (tarfile with the default filter of Python before 3.14). Hard links and devices are not modelled."
  },
  {
   "property": "C33",
   "status": "proved",
   "theorems": [
    "C33_process_file",
    "C33_process",
    "C33_json",
    "C33_process_compressed",
    "C33_missing",
    "C33_success",
    "C33_failure"
   ],
   "note": "Every outcome of every operation underneath; BaseExceptions pass through. process_compressed itself raises RuntimeError."
  },
  {
   "property": "C34",
   "status": "partial",
   "theorems": [
    "C34_compressed_removes",
    "C34_no_leak_over_histories",
    "C34_kept_directory",
    "C34_process_success",
    "C34_cleanup_twice",
    "C34_process_leak_refuted",
    "C34_result_cleanup_refuted"
   ],
   "note": "process_compressed(cleanup=True) removes its directory on every path. Refuted: process(cleanup=True) leaks it when processing fails; the result of process_compressed(cleanup=True) has a cleanup() that raises."
  },
  {
   "property": "C35",
   "status": "proved",
   "theorems": [
    "C35_terminates_once",
    "C35_fuel_irrelevant",
    "C35_second_call"
   ],
   "note": "Any number of files, any graph, any behaviour of the texts (each text is an arbitrary terminating program calling parse_file); that the text loop ends is C38."
  },
  {
   "property": "C36",
   "status": "partial",
   "theorems": [
    "C36_if_else_fi",
    "C36_if_fi",
    "C36_unclosed_raises_partial",
    "C36_unclosed_raises_refuted",
    "C36_or_after_else_refuted",
    "C36_nested_ifthenelse_refuted"
   ],
   "note": "Branches and end position proved for every well-nested conditional and any patterns; refuted: an unclosed conditional ending in a marker returns normally, \\or after \\else raises IndexError (not caught by the handler), a nested \\ifthenelse makes the conditional unclosed."
  },
  {
   "property": "C37",
   "status": "partial",
   "theorems": [
    "C37_alternatives_partial",
    "C37_last_branch_lost_refuted",
    "C37_last_branch_witness_refuted",
    "C37_equal_branch_refuted",
    "C37_or_condition_refuted"
   ],
   "note": "Proved when \\else is present and no earlier alternative equals the if-branch; refuted otherwise: the last alternative is always lost without \\else."
  },
  {
   "property": "C38",
   "status": "partial",
   "theorems": [
    "C38_group_refuted",
    "C38_overpic_refuted",
    "C38_tikz_refuted",
    "C38_macros_refuted",
    "C38_terminates_partial",
    "C38_macros_partial"
   ],
   "note": "Refuted: an unclosed begingroup, overpic or tikzpicture and macros that call each other make the loop run forever. Proved when every component makes progress, and for parameterless macros without a cycle."
  },
  {
   "property": "C39",
   "status": "proved",
   "theorems": [
    "C39_citations",
    "C39_cref"
   ],
   "note": ""
  },
  {
   "property": "C40",
   "status": "partial",
   "theorems": [
    "C40_shared_boxes_refuted",
    "C40_isolated_after_clear_partial",
    "C40_clear_gives_own_boxes_partial",
    "C40_clear_leaves_others_partial"
   ],
   "note": "Refuted: boxes saved through one BoxHandler are visible in every other one that was never cleared (class-level dictionaries). After clear() an instance is isolated, for every interleaving. Only the boxes are modelled as shared state."
  },
  {
   "property": "C41",
   "status": "proved",
   "theorems": [
    "C41_settings",
    "C41_pairs",
    "C41_spaces_refuted"
   ],
   "note": "Proved for keys free of comma, = and blanks and values free of commas, as stated; the refuted theorem shows what happens outside that range."
  },
  {
   "property": "C42",
   "status": "proved",
   "theorems": [
    "C42_flatten_round_trip",
    "C42_one_key_per_token"
   ],
   "note": "For plain texts without the characters |REF_ ."
  },
  {
   "property": "C43",
   "status": "partial",
   "theorems": [
    "C43_parameter_after_double_backslash_refuted"
   ],
   "note": "Refuted: the parameter in a\\\\#1 is not replaced."
  },
  {
   "property": "C44",
   "status": "partial",
   "theorems": [
    "C44_appendix_letter_refuted",
    "C44_appendix_letter_partial"
   ],
   "note": "Refuted: the 27th section is [ and a subsection before the first section is @.1. Proved for 1 to 26."
  },
  {
   "property": "C45",
   "status": "partial",
   "theorems": [
    "C45_grid_and_spans_partial",
    "C45_span_around_makecell_refuted",
    "C45_text_beside_refuted",
    "C45_unclosed_makecell_raises_refuted"
   ],
   "note": "Proved for cells that are plain text, one stack or spans alone; refuted for spans around makecell (span lost), text beside a stack or span (text lost) and unclosed makecell (TypeError)."
  },
  {
   "property": "C46",
   "status": "partial",
   "theorems": [
    "C46_structures_round_trip_partial",
    "C46_nested_structures_refuted"
   ],
   "note": "Proved when no stored structure contains another key; refuted for a multicolumn inside a multirow (the key stays in the text)."
  },
  {
   "property": "C47",
   "status": "proved",
   "theorems": [
    "C47_define_key",
    "C41_settings",
    "C47_default_refuted"
   ],
   "note": "A definition replaces and a setting runs the last code on the last value; C47_default_refuted shows that the recorded default is not used."
  },
  {
   "property": "C48",
   "status": "partial",
   "theorems": [
    "C48_sections",
    "C48_paragraphs",
    "C48_case_refuted"
   ],
   "note": "Proved for the usual spelling; refuted for other cases: SUBSECTION* becomes a numbered section of level 1."
  },
  {
   "property": "C49",
   "status": "partial",
   "theorems": [
    "C49_progress_partial",
    "C49_hyperref_refuted"
   ],
   "note": "Progress proved for every text; the only exception is AttributeError on hyperref without optional argument (refuted)."
  },
  {
   "property": "C50",
   "status": "partial",
   "theorems": [
    "C50_entries_partial",
    "C50_roundtrip",
    "C50_bare_value_refuted",
    "C50_nested_entry_refuted"
   ],
   "note": "Exact for files whose values are braced or quoted and contain no @. Refuted: a bare value (year = 2020) is dropped; an @word{..} inside a value becomes an entry of its own."
  },
  {
   "property": "C51",
   "status": "proved",
   "theorems": [
    "C51_gz_output"
   ],
   "note": ""
  },
  {
   "property": "C52",
   "status": "proved",
   "theorems": [
    "C52_marker",
    "C52_main_found",
    "C52_main_missing"
   ],
   "note": "os.walk order is an input; relpath is abstracted to the pair (root, file)."
  },
  {
   "property": "C53",
   "status": "partial",
   "theorems": [
    "C53_directory_restored_refuted",
    "C53_package_lost_refuted",
    "C53_directory_restored_partial"
   ],
   "note": "Refuted when the text of a package raises: its directory stays current. Proved otherwise."
  },
  {
   "property": "C54",
   "status": "partial",
   "theorems": [
    "C54_newcommand_read_partial",
    "C54_default_newline_refuted",
    "C54_default_bracket_refuted"
   ],
   "note": "Proved for command words of letters and @ ending in a letter, and defaults without a newline or a closing bracket; refuted for defaults with a newline (lost) and with nested brackets (definition not recognised)."
  },
  {
   "property": "C55",
   "status": "partial",
   "theorems": [
    "C55_call_partial",
    "C55_longer_word_refuted"
   ],
   "note": "Proved for every history of newcommand-style definitions; refuted for names ending in @."
  },
  {
   "property": "C56",
   "status": "partial",
   "theorems": [
    "C55_call_partial",
    "C56_history_grows",
    "C56_latest_wins_refuted",
    "C56_self_reference_refuted"
   ],
   "note": "Proved within newcommand-style definitions whose body does not use the name itself (C55_call_partial speaks of the latest definition); refuted for a let followed by a renewcommand and for a body that uses the old meaning."
  },
  {
   "property": "C57",
   "status": "partial",
   "theorems": [
    "C57_expand_partial",
    "C57_table_reached",
    "C57_line_break_refuted",
    "C57_adjacent_refuted"
   ],
   "note": "Proved for parameterless macros when one pass leaves no use; refuted after a line break and for adjacent uses."
  },
  {
   "property": "C58",
   "status": "partial",
   "theorems": [
    "C58_edef_once_refuted",
    "C58_edef_once_partial"
   ],
   "note": "Refuted: the parser registers every definition twice. Proved when the body uses no known command."
  },
  {
   "property": "C59",
   "status": "partial",
   "theorems": [
    "C59_let_partial",
    "C59_let_swallows_refuted",
    "C59_let_comma_refuted"
   ],
   "note": "Proved when a blank, a brace or the end follows; refuted with a blank before the equals sign, and when another character follows."
  },
  {
   "property": "C60",
   "status": "partial",
   "theorems": [
    "C60_def_call_partial",
    "C60_deep_argument_refuted"
   ],
   "note": "Proved for arguments with at most one level of braces inside; refuted at the next level."
  },
  {
   "property": "C61",
   "status": "partial",
   "theorems": [
    "C61_unknown_refuted",
    "C61_overpic_refuted",
    "C61_unknown_partial"
   ],
   "note": "Refuted for an unclosed brace after an unknown command and for an unclosed overpic; an unknown command with a closed argument takes exactly its text."
  },
  {
   "property": "C62",
   "status": "proved",
   "theorems": [
    "C62_plain_text"
   ],
   "note": "Any handlers, macros and options; expansion of the plain text is a parameter."
  },
  {
   "property": "C63",
   "status": "partial",
   "theorems": [
    "C63_label_owner_partial",
    "C63_environment",
    "C63_footnote_refuted"
   ],
   "note": "The exact owner is proved for the code as it is; refuted after a footnote."
  },
  {
   "property": "C64",
   "status": "partial",
   "theorems": [
    "C64_group_refuted"
   ],
   "note": "Refuted: the blank before a group is lost."
  },
  {
   "property": "C65",
   "status": "partial",
   "theorems": [
    "C65_lost_refuted",
    "C65_kept_partial",
    "C65_label_table"
   ],
   "note": "Refuted for an environment that contains only the label; proved when every droppable environment contains a token."
  },
  {
   "property": "C66",
   "status": "partial",
   "theorems": [
    "C66_nested_by_level_partial",
    "C66_after_a_section",
    "C66_inside_a_section",
    "C66_subparagraph_refuted",
    "C66_after_appendices_refuted",
    "C66_chapter_refuted"
   ],
   "note": "Proved for every input on which nothing but appendices and bibliographies follows an appendix environment with content or a bibliography in the appendix. False in three cases: subparagraphs inside a section are put beside their paragraph; text after an appendices environment follows its last section as a sibling; a chapter has the level of a section."
  },
  {
   "property": "C67",
   "status": "partial",
   "theorems": [
    "C67_environment_partial",
    "C67_names",
    "C67_comment",
    "C67_unclosed",
    "C67_group",
    "C67_position",
    "C67_bracket_text_refuted",
    "C67_own_title_refuted",
    "C67_pair_refuted",
    "C67_blank_name_refuted",
    "C67_raises_refuted"
   ],
   "note": "Proved for \\begin{name} with a name without outer blanks; a leading bracket group is always taken for an optional argument, which loses text in five kinds of input (refuted)."
  },
  {
   "property": "C68",
   "status": "partial",
   "theorems": [
    "C68_define",
    "C68_use_partial",
    "C68_arguments_unique",
    "C68_blank_refuted",
    "C68_provide_refuted"
   ],
   "note": "The reading of arguments is exact for arguments without blanks between them; refuted for blanks between arguments and for \\provideenvironment."
  },
  {
   "property": "C69",
   "status": "partial",
   "theorems": [
    "C69_equation_partial",
    "C69_empty",
    "C69_not_equation",
    "C69_set_order",
    "C69_two_lines_refuted",
    "C69_nested_refuted",
    "C69_escaped_dollar_refuted",
    "C69_unbalanced_refuted"
   ],
   "note": "Proved for every equation whose text has no \\foo..\\endfoo pairs and no formatting/box commands (components abstract), balanced braces for delimited equations; independence of the set order proved without conditions. The full claim is refuted: line breaks in \\(..\\), nested environments of the same name, escaped dollars, \\[..\\] inside \\mbox."
  },
  {
   "property": "C70",
   "status": "partial",
   "theorems": [
    "C70_termination_refuted",
    "C70_placeholders_end"
   ],
   "note": "Refuted: on $\\array{c}\\arraystretch x\\endarray+z$ the pair conversion grows the text forever (no amount of steps suffices). The placeholder loop always ends."
  },
  {
   "property": "C71",
   "status": "partial",
   "theorems": [
    "C71_item_partial",
    "C71_not_item",
    "C71_ends",
    "C71_body_refuted",
    "C71_title_refuted",
    "C71_unclosed_refuted"
   ],
   "note": "Exact for every text without \\foo..\\endfoo pairs whose groups are closed; a leading bracket group of the body is lost (refuted), a title is cut at the first closing bracket (refuted), an unclosed group ends the item early (refuted). Termination for every text."
  },
  {
   "property": "C72",
   "status": "partial",
   "theorems": [
    "C72_forloop",
    "C72_other",
    "C72_foreach_eats_refuted",
    "C72_foreach_next_refuted",
    "C72_foreach_leaks_refuted",
    "C72_step_refuted"
   ],
   "note": "Exact for \\forloop; refuted for \\foreach, which takes following text along or leaks its body, and for \\forloop with a step."
  },
  {
   "property": "C73",
   "status": "partial",
   "theorems": [
    "C73_formulas_kept_partial",
    "C73_formulas_kept_converse_partial",
    "C73_rewriting_is_deterministic",
    "C73_placeholder_in_text_refuted"
   ],
   "note": "Proved for arbitrary components whenever the rewritten text does not contain the word MATH_BLOCK; refuted otherwise: a literal placeholder in the source is replaced by a formula."
  },
  {
   "property": "C74",
   "status": "partial",
   "theorems": [
    "C74_comment_in_verbatim_refuted",
    "C74_quotes_in_verbatim_refuted",
    "C74_macro_in_verbatim_refuted",
    "C74_blocks_kept_partial",
    "C74_first_environment_kept_partial",
    "C74_quiet_document_partial"
   ],
   "note": "Refuted: comment signs, quotation marks and macros inside verbatim code are rewritten. The whitespace step keeps every block; the whole pipeline keeps them when no component finds anything."
  },
  {
   "property": "C75",
   "status": "partial",
   "theorems": [
    "C75_before_class_ignored_refuted",
    "C75_rest_processed_partial"
   ],
   "note": "Refuted for every document: what comes before \\documentclass has no effect at all. The rest is processed exactly."
  },
  {
   "property": "C76",
   "status": "proved",
   "theorems": [
    "C76_quotes_converted",
    "C76_every_text_covered",
    "C76_only_marks_change"
   ],
   "note": "Every text; the specification covers every text and is deterministic through the theorem. Stated for texts in which no other component applies."
  },
  {
   "property": "C77",
   "status": "partial",
   "theorems": [
    "C77_recursive_macro_refuted",
    "C77_quiet_document_ends_partial"
   ],
   "note": "Refuted for a macro that expands to itself; proved when no component finds anything except formulas."
  },
  {
   "property": "C78",
   "status": "partial",
   "theorems": [
    "C78_box_partial",
    "C78_mbox_partial",
    "C78_mbox_raises_refuted",
    "C78_mbox_formula_refuted",
    "C78_scalebox_refuted",
    "C78_star_refuted",
    "C78_hbox_to_refuted"
   ],
   "note": "Proved for every box command with its arguments; refuted for an unknown command or formula in \\mbox, the optional argument of \\scalebox, starred boxes and \\hbox to."
  },
  {
   "property": "C79",
   "status": "partial",
   "theorems": [
    "C79_history_partial",
    "C79_nested_partial",
    "C79_every_history_covered",
    "C79_width_refuted",
    "C79_setbox_refuted",
    "C79_numbered_refuted"
   ],
   "note": "Every history, for a processing function without side effects; refuted for \\savebox with a width, \\setbox without an equals sign and numbered boxes."
  },
  {
   "property": "C80",
   "status": "partial",
   "theorems": [
    "C80_box_grows_refuted",
    "C80_box_label_refuted",
    "C80_boxes_are_values_partial"
   ],
   "note": "Refuted by object sharing; proved when nothing is merged into a token that came from a box."
  },
  {
   "property": "C81",
   "status": "partial",
   "theorems": [
    "C81_value_ignored_refuted"
   ],
   "note": "Refuted for every \\ifbool with two branches: the report does not depend on the boolean, and the factory drops the token, so both branches are lost."
  },
  {
   "property": "C82",
   "status": "partial",
   "theorems": [
    "C82_ifthenelse_partial",
    "C82_atif",
    "C82_ifstar",
    "C82_branch_taken_refuted",
    "C82_groups_refuted"
   ],
   "note": "Reports proved exactly; refuted: the preprocessor drops both branches of \\@if..., \\IfFileExists is not read by its groups, a missing group of \\ifthenelse raises."
  },
  {
   "property": "C83",
   "status": "partial",
   "theorems": [
    "C83_if_else_partial",
    "C83_if_partial",
    "C83_unclosed_partial",
    "C83_text_refuted",
    "C83_prefix_refuted"
   ],
   "note": "Proved with the real patterns for every nesting of conditionals with names of at least three letters followed by a blank or a command; refuted for other texts."
  },
  {
   "property": "C84",
   "status": "partial",
   "theorems": [
    "C84_branch_taken_refuted",
    "C84_undefined_refuted"
   ],
   "note": "Refuted: the branch taken depends on the name only."
  },
  {
   "property": "C85",
   "status": "partial",
   "theorems": [
    "C85_read_partial",
    "C85_rest_partial",
    "C85_brace_refuted"
   ],
   "note": "Proved for every document with a reading in the relation of ParseRead.v (text with escapes and glued braces, groups, every kind of command, recursive parses). Not covered: \\label without a group, unknown commands without the unknown-command option at odd places, handlers that return an end before 0 or after the text. Refuted for a text ending in an escaped or glued opening brace."
  },
  {
   "property": "C86",
   "status": "partial",
   "theorems": [
    "C86_group_partial",
    "C86_empty_partial",
    "C86_character_partial",
    "C86_command_partial",
    "C86_every_argument_covered",
    "C86_command_argument_refuted",
    "C86_repeated_refuted",
    "C86_blank_refuted",
    "C86_final_brace_refuted"
   ],
   "note": "Groups, empty groups, single characters and following commands in full; refuted: a command as argument gets no style, styles repeat with several tokens, trailing blanks raise IndexError, a final opening brace swallows the text."
  },
  {
   "property": "C87",
   "status": "partial",
   "theorems": [
    "C87_citetext_partial",
    "C87_frac_partial",
    "C87_texorpdfstring_partial",
    "C87_textcolor_partial",
    "C87_twocolumn_partial",
    "C87_subfloat_partial",
    "C87_romannumeral_partial",
    "C87_fontsize_partial",
    "C87_usefont_partial",
    "C87_selectfont",
    "C87_font_argument_refuted",
    "C87_bare_refuted",
    "C87_frac_refuted",
    "C87_subfloat_refuted"
   ],
   "note": "Each command with complete arguments; refuted for bare arguments, for unknown commands in a fraction (KeyError) and for an unclosed \\subfloat caption (AttributeError). \\fontsize, \\usefont and \\selectfont are dropped with their plain arguments; refuted for empty or nested arguments."
  },
  {
   "property": "C88",
   "status": "partial",
   "theorems": [
    "C88_preprocessed_partial",
    "C88_unique",
    "C88_document_partial",
    "C88_addto_refuted"
   ],
   "note": "Proved for every document with a derivation in the relation of PreRead.v, over arbitrary components; the output may not contain the word MATH_BLOCK. Refuted for \\addto, whose pattern reaches into the argument."
  },
  {
   "property": "C89",
   "status": "partial",
   "theorems": [
    "C89_switch_partial",
    "C89_group",
    "C89_prefix_refuted",
    "C89_group_only_refuted",
    "C89_past_group_refuted",
    "C89_unclosed_refuted"
   ],
   "note": "Proved for every switch, text and nesting; at most one font or size command at the very end of the text is moved behind it (more are not covered), and the text has no \\foo...\\endfoo pairs. Refuted: a switch whose name extends the previous one is cut, a group takes the whole switch, repeating a switch turns it off, a switch at the end of its group reaches behind the brace, an unclosed group raises."
  },
  {
   "property": "C90",
   "status": "partial",
   "theorems": [
    "C90_color_partial",
    "C90_normalcolor",
    "C90_model_refuted",
    "C90_unclosed_refuted"
   ],
   "note": "Proved for every colour; with a colour model the following command may not start with a character of the model: otherwise it loses characters (refuted). An unclosed colour raises."
  },
  {
   "property": "C91",
   "status": "partial",
   "theorems": [
    "C91_entries_partial",
    "C91_word_refuted"
   ],
   "note": "Proved for every text whose items have keys without a closing brace, labels without a closing bracket, bodies without the letters \\bibitem, and authors without backslash where \\bysame is used. Refuted in full: commands such as \\bibitemNoStop end an item and their text is lost."
  },
  {
   "property": "C92",
   "status": "partial",
   "theorems": [
    "C92_total_partial",
    "C92_raises_refuted",
    "C92_escape_refuted",
    "C92_authors_refuted"
   ],
   "note": "The replacement itself is part of C91_entries_partial (authors without a backslash). Refuted for authors with a command: re.error or a wrong character; several authors: only the first."
  },
  {
   "property": "C93",
   "status": "partial",
   "theorems": [
    "C93_terminates",
    "C93_entries_partial",
    "C93_nested_refuted",
    "C93_escaped_refuted",
    "C93_empty_refuted",
    "C93_name_refuted"
   ],
   "note": "Termination for every text; entries for values whose groups are not nested. Refuted: nested groups, escaped braces, entries without fields, names with a hyphen."
  },
  {
   "property": "C94",
   "status": "partial",
   "theorems": [
    "C94_div",
    "C94_tex",
    "C94_items",
    "C94_none",
    "C94_at_refuted",
    "C94_percent_refuted"
   ],
   "note": "The choice of the format is exact (compiled BibTeX abstract). Refuted: an at sign with a word and a group anywhere in a \\bibitem list makes all of its items disappear; a percent sign in a BibTeX value loses the entry."
  },
  {
   "property": "C95",
   "status": "partial",
   "theorems": [
    "C95_named",
    "C95_main",
    "C95_first",
    "C95_missing",
    "C95_bare_refuted",
    "C95_ext_refuted"
   ],
   "note": "Proved for every file system; refuted for a bare name that does not exist (os.listdir of the empty path raises) and for an existing file with another extension."
  },
  {
   "property": "C96",
   "status": "partial",
   "theorems": [
    "C96_code",
    "C96_only_code",
    "C96_other",
    "C96_can_handle",
    "C96_indent_refuted",
    "C96_blank_refuted",
    "C96_options_refuted",
    "C96_star_refuted"
   ],
   "note": "Which text is code and what is in it is exact for every text. Refuted: the text is stripped (indentation of the first line, code of blanks), options end at the first bracket, starred environments are not code."
  },
  {
   "property": "C97",
   "status": "partial",
   "theorems": [
    "C97_author",
    "C97_every_text_covered",
    "C97_fields",
    "C97_thanks",
    "C97_unclosed_refuted",
    "C97_nested_refuted",
    "C97_line_break_refuted",
    "C97_curraddr_refuted"
   ],
   "note": "Proved for every closed argument with an abstract parser of the pieces. Refuted: an unclosed argument raises TypeError, \\and inside a group or after a line break separates, \\curraddr gives nothing."
  },
  {
   "property": "C98",
   "status": "partial",
   "theorems": [
    "C98_accent",
    "C98_other",
    "C98_macro_refuted",
    "C98_stacked_refuted",
    "C98_empty_refuted"
   ],
   "note": "Proved for every text, with the composition of characters abstract. Refuted: a base that is a command (\\i, \\j, another accent) or an empty group puts the accent on a backslash or a brace."
  },
  {
   "property": "C99",
   "status": "partial",
   "theorems": [
    "C99_total",
    "C99_can_handle",
    "C99_hphantom_refuted"
   ],
   "note": "Bounds, progress and the effect on the previous token hold for every text and every list of excluded patterns; refuted for one case: an unclosed \\hphantom raises TypeError."
  }
 ]
}