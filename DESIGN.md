# Formal model of latex2json in Rocq (Coq 8.16.1)

## Approach
Shallow embedding. Every modelled Python function becomes a total Gallina
function mirroring it branch by branch; loops become structural recursion or
recursion on a fuel that is proved sufficient; exceptions are values
(`Raise e`) of a result type; dictionaries are association lists; Python
strings are `list N` of code points (so every Unicode text is covered).
Model files (`*Model.v`), specification files (`*Spec.v`), proof files
(`*Proofs.v`) and property files (`Props_*.v`) are separate. In property files
each theorem is stated using only the model's public functions and the small
specification vocabulary and is closed by `exact lemma`, followed by
`Print Assumptions`. Beside each theorem there is an `Example` showing that
a non-trivial case meets the hypotheses.

Properties the code violates are stated in full, and refuted by a theorem with
suffix `_refuted` (a witness); the strongest true version is proved with suffix
`_partial`.

## Plan per property
| id | modelled | proof |
|---|---|---|
| C01,C02 | is_escaped, find_matching_delimiter, extract_nested_content | scanner invariant vs inductive grammar of balanced texts |
| C03 | extract_nested_content_sequence_blocks | induction on fuel = length |
| C04 | extract_args | refutation + partial (no optional args consumed) |
| C05 | extract_delimited_args | loop invariant over spec |
| C06 | check_delimiter_balance | equivalence with the grammar |
| C07 | find_delimiter_end, extract_equation_content | least-position characterisation |
| C08 | extract_nested_content_pattern, find_matching_env_block (concrete matcher for the two regexes) | token-level bracket language |
| C09,C10 | splitlines, strip_latex_comments | line-wise characterisation, idempotence |
| C11 | has_comment_on_sameline | refutation, partial for lines w/o double backslash |
| C12,C13 | the re.sub chains as scanners | induction; refutation by marker |
| C14,C15 | substitute_args | token-level spec; refutation for #0 |
| C16 | flatten | nested induction |
| C17 | int_to_roman | loop invariant |
| C18-C23 | builder.py entire except logging | induction over token trees/lists |
| C24 | token_factory.create; exact specifications of equation, math_env and tabular, whose process methods differ from the claim | nested induction |
| C25 | split_latex_content | induction |
| C26,C27 | add_token, _parse_bib_file | induction |
| C28 | bibtex_parser.parse loops | well-founded progress |
| C29 | preprocessor placeholders | induction |
| C30,C41 | etoolbox, keyval | state machines |
| C31,C32 | member filter; file system with symlinks | lexical induction; refutation |
| C33,C34 | tex_reader / extractor effects | case analysis on all outcomes |
| C35 | sty_parser file graph | measure on unparsed files |
| C36,C37 | extract_else_elseif_fi | marker-level bracket language; refutation |
| C38 | parse loop | refutation (diverges) + partial progress |
| C39 | citation splitting | induction |
| C40 | BoxHandler class-level dicts | refutation |
| C42 | flatten_tokens | induction |
| C43 | substitute_args (escaped backslash before #) | refutation; SubstProofs |
| C44 | _update_section_numbering | computation over all histories of counters; refutation after Z |
| C45 | split_cells, parse_tabular (TableModel) | row/cell grammar, induction on the scanner state |
| C46 | extract_table_structures + placeholders | placeholder freshness, induction over replacements; refutation by a text that looks like a placeholder |
| C47 | define@key / setkeys | association-list history |
| C48,C49 | ContentCommandHandler.handle with its regex table | regex-match inversion; progress by minimal match length |
| C50 | BibTexParser on a grammar of entries | induction over entries and fields |
| C51,C52 | process_compressed_file, find_main_tex_file | case analysis over file systems; first-match induction |
| C53 | LatexStyParser over a file graph | induction over loads |
| C54-C60 | new_definition.py, command_processor.py, command_manager.py (CommandModel) | exact regex runs on a grammar of definitions/calls; histories as lists of definitions |
| C38,C61,C62,C64 | parse loop (ParseModel) with abstract components | fuel/progress argument; refutations by one component |
| C63,C65 | _handle_label / token stack (LabelModel) | event trees, invariant of the environment stack |
| C66 | _recursive_organize | stack invariant |
| C67,C68 | BaseEnvironmentHandler, EnvironmentProcessor (EnvHandlerModel) | exact match of nested environments, refutations |
| C69,C70 | EquationHandler (EqModel) | exact; fuel for convert_pairs, refutation |
| C71,C72 | ItemHandler, ForLoopHandler | exact spans |
| C73-C77, C88 | LatexPreprocessor (PreModel) with abstract components | placeholder masking; reading relation; divergence witness |
| C78-C80 | BoxHandler, aliasing of saved tokens (BoxModel, AliasModel with a heap) | histories of box commands; heap simulation for aliasing |
| C81 | EtoolboxHandler.handle + TokenFactory | refutation |
| C82-C84 | IfElseBlockHandler, handlers of \ifNAME (IfHandlerModel) | marker grammar + exact regex runs |
| C85 | parse loop reading relation | inductive relation on text, induction on fuel |
| C86,C87 | TextFormattingHandler (StyleModel) | exact regex runs on arguments |
| C89,C90 | LegacyFormattingHandler (LegacyModel) | scope relation, first-hit characterisation |
| C91,C92 | BibItemParser (BibitemModel) | induction over items; re.sub template refutation |
| C93 | BibDivParser (BibdivModel) | termination by a measure on the remaining text; grammar of entries |
| C94,C95 | BibParser.parse / parse_file (BibParserModel) | case analysis over texts and file systems |
| C96 | CodeBlockHandler (CodeModel) | iff with a source relation |
| C97 | AuthorHandler (AuthorModel) | split characterisation, exact spans |
| C98 | DiacriticsHandler (DiacriticsModel) | iff with a source relation, uniqueness of the command name |
| C99 | FormattingHandler (FormatModel, all 76 patterns) | minimal lengths of patterns, case analysis of actions |
| C100,C101 | the same | an abstract matcher on known beginnings (RegexAbs, proved sound) decides by computation which patterns can match; unique ends |
| C102 | NewDefinitionHandler in full (DefModel: 26 patterns, \expandafter and \csname loop, \@namedef) | induction on fuel; room lemma for the shifted positions |
| C103 | the same | grammar of declarations; the abstract matcher picks the pattern, a small calculus (`sees`) runs it |
| C104 | the same | one step of the prefix loop as a lemma, the loop by its steps on \csname…\endcsname; \expandafter by fuel independence of the recursion; counterexamples computed |
| C105 | the same, with the macro grammar of CommandSpec.v | the pattern and the parameter scanner run symbolically; \newcommand reduced to the theorem about CommandModel |
| C106 | tex_preamble.py:19-124 (`PreambleModel.v`), with the whole of new_definition.py | left-to-right relation `reads`; regular expressions against their grammars in both directions; induction on the fuel, determinism of the relation |
| C107 | packages/titlesec.py:24-69 (`PackModel.v`), packages/overpic.py:14-43 and tikz_pgf.py:16-60 (`ParseCore.v`) | title commands against their grammar in both directions, arguments by C05, environments by C08, groups by C02 |
| C108 | compiled_bibtex.py:11-158 (`CompModel.v`) | replacement of abbreviations by the inductive relations `replaced`/`dashed`; header, authors, fields and eprint each against its grammar (first match of a word: `absent`), the dictionary by induction on the fields, files by induction on the entries |
| C109 | the same, with bibtex_parser.py (`BibModel.v`) | the printed text is a file in the grammar of C50, whose reading is proved there |
| C110–C112 | latex_unicode_converter.py:6-97 and the table _latex2unicode_map.py, written as data by a script (`UnicodeTable.v`, `UnicodeModel.v`) | `UnicodeSpec.v` gives the pieces of a text, what they are written as and what they mean, and when a key is recognised by itself. `UnicodeProofs.v`: what one key pattern and one alternation match; `UnicodeProofs2.v`: facts of the whole table by inspection (computation over all 2677 keys), which keys can match at a character, at a brace, at a command; `UnicodeProofs3/4.v`: the text before each round as a function of the pieces, one round by induction on the pieces; `UnicodeProofs5.v`: the \uXXXX round and the composition of the rounds. `UnicodeCover.v` counts the keys that are recognised |
| C113–C115 | encoding.py:5-65 (`CodecModel.v`): the sample, the mapping of names, strict and replacing UTF-8 decoding, latin-1, cp1252, universal newlines; `chardet` and every other codec are arbitrary functions | `CodecSpec.v` gives UTF-8 by its encoder (`encode`), the texts with damaged bytes (`damaged`, `raw`, `seen`) and newline translation as a relation (`unix`). `CodecProofs.v`: the decoder inverts the encoder at every position by the four ranges of code points, one replacement character for every stray byte, totality. Refuted parts: two different files read as one text, the codec Python lacks, the western fallback |
| C116–C120 | content_command.py:22-137, 139-281 (`ContentModel.v`, as for C39), and for C119 the class attribute `citealias` and several handler objects (`ContentShared.v`) | `ContentSpec2.v`: what a command is written as, page and pages of options, the latest alias. `ContentProofs5.v`: patterns as relations `runs` between the text read, the text behind and the captures, composed like the patterns; one lemma for all commands with a last group; `ContentProofs6/7.v` instantiate it for every command; the search in the options by its first place; aliases by induction over the definitions; isolation by induction over the calls. The refuted parts are computed |
| C121 | tex_reader.py:131-182: json.dumps(data, ensure_ascii=False) on the JSON values of an answer (`JsonTextModel.v`) | `JsonTextSpec.v` is the grammar of RFC 8259 as a relation `denotes` between texts and values, with all its freedom (blanks, \\uXXXX escapes, \\/), numbers restricted to integers. `JsonTextProofs.v`: the written text denotes the value, by induction over its size; `JsonTextProofs2.v`: a written text with any text behind it that cannot continue it denotes only that value (prefix-uniqueness by induction over the size); `JsonTextProofs3.v`: which answers hold surrogates. An escape \\uXXXX is read as one code point; the writer never writes one above 001f. |
| C122 | structure/tokens/base.py:15-81, document.py:22-30, tabular.py:30-61, tex_reader.py:144-158 (`DumpModel.v`: one recursion with the way a value is serialised as a parameter: serialize_value, process_cell, or by annotation) | `DumpSpec.v`: when a JSON value shows a token (a relation that determines the value), where tokens of any kind may occur, what a token cut down to the common fields is. `DumpProofs.v`: induction over token trees (own induction principle for the nested type). Trusted about pydantic v2: fields in the order of declaration, enumerations by value, exclude_none, and that an instance of a subclass in a field annotated BaseToken is written with the fields of BaseToken. Simplified: lists of lists in such a field. |
| C123 | tex_reader.py:51-54, 103-125, 185-188 and the clear methods of parser, preprocessor, style parser, builder, command managers and handlers (`ReuseModel.v`: every attribute that is written after construction, its place, the dictionaries that live in a class; parsing and building are any computation that reads and writes them, as a tree) | `ReuseSpec.v`: the four attributes nothing clears, and when a computation does not depend on them (`same_but`: it may read and write them, as the preprocessor does). `ReuseProofs.v`: clear sets every other attribute (by cases), two readers that agree on them give the same result (induction over the computation), hence independence of history. Trusted: the list of attributes is complete. The preprocessor does run its equation handler, but uses only the end position of its token (tex_preprocessor.py:220-232), so it does not depend on its boxes and aliases. |
| C124 | utils/logger.py (`LoggerModel.v`: ColoredFormatter.format with its change and restoring of the record, setup_logger, and of Python's logging: Logger.log with its handlers, Formatter.format, % with the directives %s and %%) | `LoggerSpec.v`: filling a template, the plain and the coloured line, the lines of a list of messages. `LoggerProofs.v`: colours change no directive of the template (induction), the record is restored whenever a line was made, induction over the history. Not modelled: several loggers, propagation, the reports of logging errors. |

## Trusted base
* Coq 8.16.1's kernel (including vm_compute, used for computed cases and for
  checks on finite tables) and the Coq standard library.
* `Print Assumptions` is run under every theorem of every `Props*.v` file and
  answers "Closed under the global context" for all of them. (vcheck also lists
  seven parameters of the module type Coq.ssr.ssrunder of the standard library,
  which a library file declares; no theorem here uses them.)
* No own axioms, functors, module types, plugins or switched-off checks.
* The reading of /repo by the author of the model. Each definition cites the
  file and lines it models and says where it simplifies.

## What is modelled, and how faithfully
* **Strings** are lists of code points (N). `isspace` is Python's table for
  str.isspace / `\s`. `\d` is ASCII only. `\w` is ASCII in the computed
  examples and an arbitrary predicate (`w`, `isword`) in most theorems.
  `lower()` is ASCII or arbitrary; IGNORECASE is modelled per pattern by a
  case-insensitive character match (`ci`).
* **Regular expressions**: Regex.v is a backtracking matcher with ordered
  choice, greedy/lazy repetition, groups, lookahead and lookbehind on one
  character and word boundaries, with a relational semantics proved sound and
  complete for it. That it agrees with Python's `re` on the patterns used is
  trusted. Hand-modelled instead of by Regex.v: back-references (\verb
  delimiter, ENV_PAIR_PATTERN, the bibliography environment), the off-switch
  search of the colour model, re.sub templates (an escape that is not simple
  is an error). The 76 patterns of formatting.py were transcribed by a script
  from the source; the transcription was compared with Python's `re` on 1034
  texts (agreement on all). The lazy star of \captionof is modelled as a greedy one.
  Groups that are not read are omitted.
* **Values/tokens** are an inductive type of JSON values; object identity is
  lost, except in AliasModel, which has a heap. Pydantic validation is the
  abstract function `validate`. Recursion limits of Python are not modelled
  (ParseCore reports NoFuel); catastrophic backtracking is invisible.
* **File system**: finite maps of paths with symbolic links (ExtractModel), no
  permissions, hard links or devices; tarfile with the default filter of
  Python < 3.14; rmtree succeeds in C34; whatever bibliography file exists can
  be read and decoded (decoding itself is CodecModel, with chardet abstract).
* **Abstract components** (arbitrary functions, sometimes with state): the
  recursive parser inside handlers (boxes, styles, authors, items), the
  content/format/box handlers inside equations, the handlers of the main
  loop (ParseModel), the components of the preprocessor, the search functions
  of C36/C37 (concrete in IfHandlerModel), compiled BibTeX, texts of packages,
  NFC normalisation, the unicode converter (concrete in UnicodeModel), decimal.quantize.
* **Omitted in modelled files**: logging; current_str; csname/expandafter,
  \newif/\newtoks/\newX and paired-delimiter entries, keyval dispatch in the
  command model (the handler that reads them is complete in DefModel; Python's
  recursion limit on more than about 1000 \expandafter in a row is not modelled); names of \let and \newif are matched literally; \@ifstar
  blocks; numbering inside table rows and titles; merge_proof stays False;
  nested keyval dictionaries are flattened; box state is not threaded through
  equations; list items assume that no \foo..\endfoo pairs occur.
* **Not modelled**: the other
  packages beyond what is cited above, the command line, indentation and
  floats in the JSON writer, pydantic itself.

## Wrong programs
seeded/LOG.jsonl records every mutation of the model, what failed, and what
was tightened because of it.
