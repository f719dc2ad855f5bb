{"id": "C01", "title": "Brace extraction returns exactly one balanced group", "statement": "When extract_nested_content(text, open, close) returns (content, n) with content not None, text[:n] is optional whitespace, the open delimiter, content, the close delimiter; content is balanced (with delimiters preceded by an odd number of backslashes counting as ordinary characters) and no shorter prefix closes the group.", "quantifier": "every text and every pair of distinct single-character delimiters other than backslash/whitespace", "why_tests_cant": "Nesting depth, escape parity and text length are unbounded; tests sample a few nestings.", "anchors": ["latex2json/utils/tex_utils.py:find_matching_delimiter", "latex2json/utils/tex_utils.py:extract_nested_content", "latex2json/utils/tex_utils.py:is_escaped"]}
{"id": "C02", "title": "Brace extraction fails only when there is no group", "statement": "extract_nested_content(text, open, close) returns (None, 0) if and only if the first non-blank character is not the open delimiter or no prefix of the rest closes it.", "quantifier": "every text and every pair of distinct single-character delimiters other than backslash/whitespace", "why_tests_cant": "Completeness is a statement about all texts that have a balanced prefix, of any depth.", "anchors": ["latex2json/utils/tex_utils.py:extract_nested_content"]}
{"id": "C03", "title": "Block sequences are consumed exactly and greedily", "statement": "extract_nested_content_sequence_blocks(text, o, c, k) returns blocks b1..bm and position p such that m <= k, text[:p] is exactly whitespace-separated o b1 c, ..., o bm c, and either m = k or no further block follows at p. With no block p is 0.", "quantifier": "every text, delimiter pair and bound k including infinity", "why_tests_cant": "Number of blocks, nesting and text are unbounded; the loop's termination also has to hold for every text.", "anchors": ["latex2json/utils/tex_utils.py:extract_nested_content_sequence_blocks"]}
{"id": "C04", "title": "extract_args reports the position after all consumed arguments", "statement": "extract_args(content, req, opt) returns the arguments and the end position in the original content after the last consumed argument, so content[end:] is the unread rest.", "quantifier": "every content and all counts req, opt", "why_tests_cant": "Only a proof (or a counterexample) over all combinations of present/absent optional and required arguments settles it.", "anchors": ["latex2json/utils/tex_utils.py:extract_args"]}
{"id": "C05", "title": "extract_delimited_args consumes a prefix that re-renders to its results", "statement": "extract_delimited_args(content, spec) returns at most len(spec) results, an end position within 0..len(content), and the consumed prefix consists of whitespace and exactly the returned groups in order.", "quantifier": "every content and every spec over { and [", "why_tests_cant": "spec strings and contents are unbounded, with missing optional arguments and early exits.", "anchors": ["latex2json/utils/tex_utils.py:extract_delimited_args"]}
{"id": "C06", "title": "check_delimiter_balance decides balance", "statement": "check_delimiter_balance(text, o, c) is True exactly when text is balanced with respect to the unescaped delimiters.", "quantifier": "every text and every pair of distinct delimiters", "why_tests_cant": "Equivalence with an inductive definition of balance over all strings.", "anchors": ["latex2json/utils/tex_utils.py:check_delimiter_balance"]}
{"id": "C07", "title": "Equation delimiters respect escapes and braces", "statement": "extract_equation_content(text, d) for d in $ or $$ returns the stripped text up to the first occurrence of d that is unescaped and at brace depth zero, and the position after it; it returns ('', 0) exactly when text does not start with d or there is no such occurrence.", "quantifier": "every text", "why_tests_cant": "First-occurrence minimality quantifies over all earlier positions of all texts.", "anchors": ["latex2json/utils/tex_utils.py:find_delimiter_end", "latex2json/utils/tex_utils.py:extract_equation_content"]}
{"id": "C08", "title": "Environment matching pairs each begin with its own end", "statement": "find_matching_env_block(text, name) returns the span of the first \\begin{name} up to the \\end{name} that closes it when nested same-name environments are counted, and (-1,-1,'') exactly when there is none; nested_content_pattern does so for any two non-empty-matching patterns.", "quantifier": "every text, environment name and nesting depth", "why_tests_cant": "Unbounded nesting depth and arbitrary surrounding text.", "anchors": ["latex2json/utils/tex_utils.py:extract_nested_content_pattern", "latex2json/utils/tex_utils.py:find_matching_env_block"]}
{"id": "C09", "title": "Comment stripping removes exactly the comments", "statement": "Each output line of strip_latex_comments is the input line cut at its first % preceded by an even number of backslashes, with trailing whitespace removed; the number of lines is unchanged; an escaped \\% is kept.", "quantifier": "every text (all Unicode line separators)", "why_tests_cant": "Escape parity and lines are unbounded.", "anchors": ["latex2json/utils/tex_utils.py:strip_latex_comments"]}
{"id": "C10", "title": "Comment stripping is idempotent and leaves no comment", "statement": "strip_latex_comments(strip_latex_comments(t)) = strip_latex_comments(t), and no line of the result contains an unescaped %.", "quantifier": "every text", "why_tests_cant": "Idempotence is a law over all texts.", "anchors": ["latex2json/utils/tex_utils.py:strip_latex_comments"]}
{"id": "C11", "title": "Both comment detectors agree", "statement": "has_comment_on_sameline(content, pos) is True exactly when strip_latex_comments would cut the current line before pos (an unescaped % by backslash parity occurs between line start and pos).", "quantifier": "every content and position", "why_tests_cant": "Disagreement only shows on particular backslash runs; agreement must hold for all.", "anchors": ["latex2json/utils/tex_utils.py:has_comment_on_sameline", "latex2json/utils/tex_utils.py:strip_latex_comments"]}
{"id": "C12", "title": "Whitespace normalisation only changes whitespace", "statement": "normalize_whitespace_and_lines(t) has the same non-whitespace characters in the same order as t: every run of spaces, tabs and newlines becomes one space, or one newline when it has at least two newlines, and the ends are trimmed.", "quantifier": "every text", "why_tests_cant": "Must hold for all texts, including those containing the function's own marker string.", "anchors": ["latex2json/utils/tex_utils.py:normalize_whitespace_and_lines"]}
{"id": "C13", "title": "strip_latex_newlines yields one trimmed line", "statement": "strip_latex_newlines(t) has no newline, no two adjacent whitespace characters, no leading/trailing whitespace, no line-break command, is the words of t (with line-break commands read as spaces) joined by single spaces, and is idempotent.", "quantifier": "every text", "why_tests_cant": "Universal over texts.", "anchors": ["latex2json/utils/tex_utils.py:strip_latex_newlines"]}
{"id": "C14", "title": "Macro argument substitution replaces parameters simultaneously and nothing else", "statement": "substitute_args(def, args) replaces each parameter #k (at the smallest #-depth present, 1 <= k <= len(args)) by args[k-1], never rescans inserted text, and copies every other character, including \\#, unchanged.", "quantifier": "every definition without a parameter numbered 0 (C15 treats #0), every argument list", "why_tests_cant": "Arguments may themselves contain #k; definitions are unbounded.", "anchors": ["latex2json/utils/tex_utils.py:substitute_args"]}
{"id": "C15", "title": "Parameter #0 is never replaced by an argument", "statement": "substitute_args(def, args) leaves #0 unchanged: only #1..#n denote arguments.", "quantifier": "every definition and argument list", "why_tests_cant": "A negative-index wraparound is invisible unless #0 is tried with a given argument list.", "anchors": ["latex2json/utils/tex_utils.py:substitute_args"]}
{"id": "C16", "title": "flatten keeps the leaves in order", "statement": "flatten(x) is the list of non-list leaves of x in left-to-right order, is itself flat and flatten(flatten(x)) = flatten(x).", "quantifier": "every nested list", "why_tests_cant": "Unbounded nesting.", "anchors": ["latex2json/utils/tex_utils.py:flatten"]}
{"id": "C17", "title": "Roman numerals denote their number", "statement": "int_to_roman(n) evaluates (by the subtractive reading of roman digits) to n, and distinct numbers have distinct numerals.", "quantifier": "every positive n", "why_tests_cant": "n is unbounded.", "anchors": ["latex2json/utils/conversions.py:int_to_roman"]}
{"id": "C18", "title": "Section numbers are the positions of sections in the hierarchy", "statement": "In organize_content, a numbered section of level 1..3 gets the dotted number whose last component counts the numbered sections of that level since the last numbered section of a lower level (or the appendix/document start), whose earlier components are the current counts of the lower levels, with the first component n written as the character 64+n (A, B, ...) inside an appendix.", "quantifier": "every flat token list whose numbered sections have level 1 to 3", "why_tests_cant": "All orders and numbers of sections.", "anchors": ["latex2json/structure/builder.py:TokenBuilder._update_section_numbering", "latex2json/structure/builder.py:TokenBuilder._recursive_organize"]}
{"id": "C19", "title": "Every numbered section can be organised", "statement": "organize_content does not raise for any numbered section the parser emits (\\part is level 0, \\subsubsubsection level 4).", "quantifier": "every token list made of parser section tokens", "why_tests_cant": "Must hold for all levels the parser can emit.", "anchors": ["latex2json/structure/builder.py:TokenBuilder._update_section_numbering", "latex2json/parser/handlers/content_command.py"]}
{"id": "C20", "title": "Equations, tables, figures and algorithms are numbered 1,2,3,... in document order", "statement": "The k-th numbered token of each of these types in a pre-order walk of the input receives numbering str(k); un-numbered tokens receive none and do not advance the counter.", "quantifier": "every token tree", "why_tests_cant": "All trees, unbounded nesting and length.", "anchors": ["latex2json/structure/builder.py:TokenBuilder._check_update_numbering"]}
{"id": "C21", "title": "Organising keeps every token in document order", "statement": "The pre-order sequence of leaf tokens of the organised document equals that of the input.", "quantifier": "every token list", "why_tests_cant": "All interleavings of sections, paragraphs, appendix and bibliography.", "anchors": ["latex2json/structure/builder.py:TokenBuilder._recursive_organize", "latex2json/structure/builder.py:TokenBuilder._manage_stack"]}
{"id": "C22", "title": "Building is independent of history", "statement": "The result of organize_content(tokens) and build(tokens) does not depend on what the same TokenBuilder processed before, including calls that raised.", "quantifier": "every history of calls and every token list", "why_tests_cant": "Histories are unbounded.", "anchors": ["latex2json/structure/builder.py:TokenBuilder.organize_content", "latex2json/structure/builder.py:TokenBuilder.clear"]}
{"id": "C23", "title": "Merging adjacent text never loses or reorders characters", "statement": "Text merging concatenates maximal runs of adjacent equally styled text tokens, inserting at most one space at each junction, and leaves every other token in place; after it no two adjacent text tokens have equal styles.", "quantifier": "every token list", "why_tests_cant": "Runs are unbounded.", "anchors": ["latex2json/structure/builder.py:TokenBuilder._concat_text_with_same_styles", "latex2json/structure/builder.py:should_add_space"]}
{"id": "C24", "title": "Token factory accepts every known type and drops unknown ones", "statement": "TokenFactory.create returns strings unchanged, rejects lists with ValueError, returns None for unknown types and for 'date', and inside content lists removes exactly the dropped tokens, keeping order.", "quantifier": "every token tree", "why_tests_cant": "Trees are unbounded.", "anchors": ["latex2json/structure/token_factory.py:TokenFactory.create", "latex2json/structure/token_factory.py:TokenFactory._process_content"]}
{"id": "C25", "title": "Row and cell splitting is lossless and respects braces", "statement": "split_latex_content(content, d, rows=False) yields parts whose join with d re-creates content up to whitespace around separators; splits occur exactly at unescaped d at brace level zero.", "quantifier": "every content and delimiter", "why_tests_cant": "All nestings and escape runs.", "anchors": ["latex2json/parser/handlers/tabular.py:split_latex_content"]}
{"id": "C26", "title": "Adding tokens merges plain text and preserves the sequence", "statement": "LatexParser.add_token keeps the concatenation of text: pushing text tokens t1..tn with no styles in between yields one token whose content is their concatenation; other tokens are kept in order; empty groups, environments and lists are dropped.", "quantifier": "every sequence of tokens", "why_tests_cant": "Sequences are unbounded.", "anchors": ["latex2json/parser/tex_parser.py:LatexParser.add_token"]}
{"id": "C27", "title": "Bibliography entries are unique by citation key, first occurrence wins", "statement": "The bibliography contains each cite key once, with the content of the first entry that defines it, in order of first occurrence over all bib files.", "quantifier": "every list of bib files and entries", "why_tests_cant": "All duplicate patterns.", "anchors": ["latex2json/parser/tex_parser.py:LatexParser._parse_bib_file"]}
{"id": "C28", "title": "BibTeX parsing terminates on every input", "statement": "BibTexParser.parse returns for every content: each round of the field loop makes progress.", "quantifier": "every content string", "why_tests_cant": "Termination on all inputs cannot be tested.", "anchors": ["latex2json/parser/bib/bibtex_parser.py:BibTexParser.parse"]}
{"id": "C29", "title": "Placeholder extraction is undone by restoration", "statement": "Restoring placeholders after extracting verbatim blocks gives back the original text.", "quantifier": "every text that does not contain the word VERBATIM_BLOCK", "why_tests_cant": "All texts and block lists.", "anchors": ["latex2json/parser/tex_preprocessor.py:_extract_verbatim_blocks", "latex2json/parser/tex_preprocessor.py:restore_placeholder_blocks"]}
{"id": "C30", "title": "etoolbox booleans behave like LaTeX booleans", "statement": "After any sequence of newbool/providebool/setbool/booltrue/boolfalse commands the recorded value of each boolean is the last value assigned after its definition, False if none; undefined booleans stay undefined.", "quantifier": "every command history", "why_tests_cant": "Histories are unbounded.", "anchors": ["latex2json/parser/packages/etoolbox.py:EtoolboxHandler"]}
{"id": "C31", "title": "Archive members are only written below the temporary directory (lexically)", "statement": "Every zip/tar member accepted for extraction has a lexical path below the temporary directory: it is not absolute and no component is '..'.", "quantifier": "every archive member name", "why_tests_cant": "All names.", "anchors": ["latex2json/tex_file_extractor.py:TexFileExtractor.process_compressed_file"]}
{"id": "C32", "title": "Archive extraction never writes outside the temporary directory", "statement": "No sequence of accepted tar members (files, directories, symbolic links) makes extraction write a file outside the temporary directory.", "quantifier": "every archive", "why_tests_cant": "All member sequences, including symlinks.", "anchors": ["latex2json/tex_file_extractor.py:TexFileExtractor.process_compressed_file"]}
{"id": "C33", "title": "Only documented exceptions leave process_file", "statement": "TexReader.process_file returns a result or raises FileNotFoundError or TexProcessingError, whatever the parser or builder raise.", "quantifier": "every outcome of the wrapped operations", "why_tests_cant": "All exception kinds at all steps.", "anchors": ["latex2json/tex_reader.py:TexReader._handle_file_operation", "latex2json/tex_reader.py:TexReader.process_file"]}
{"id": "C34", "title": "Temporary directories are removed", "statement": "When cleanup is requested the temporary directory is gone after process_compressed on every path, successful or not; and ProcessingResult.cleanup() never fails.", "quantifier": "every outcome of every step", "why_tests_cant": "All failure points.", "anchors": ["latex2json/tex_file_extractor.py:process_compressed_file", "latex2json/tex_reader.py:TexReader.process_compressed", "latex2json/tex_reader.py:ProcessingResult.cleanup"]}
{"id": "C35", "title": "Style files are parsed at most once and package cycles terminate", "statement": "LatexStyParser.parse_file terminates for every finite (even cyclic) package graph and parses each file at most once.", "quantifier": "every file graph", "why_tests_cant": "All graphs.", "anchors": ["latex2json/parser/sty_parser.py:LatexStyParser.parse_file"]}
{"id": "C36", "title": "Conditionals are split at their own \\else and \\fi", "statement": "extract_else_elseif_fi returns the if-branch, else-branch and end position delimited by the \\else/\\fi of nesting level 1; nested conditionals stay whole inside their branch; an unclosed conditional raises.", "quantifier": "every sequence of conditional markers and texts", "why_tests_cant": "Nesting is unbounded.", "anchors": ["latex2json/parser/handlers/if_else_statements.py:extract_else_elseif_fi"]}
{"id": "C37", "title": "The last \\elsif branch is kept", "statement": "Every \\elsif/\\or branch of a conditional appears with its content in elsif_branches.", "quantifier": "every conditional", "why_tests_cant": "All numbers of branches with/without \\else.", "anchors": ["latex2json/parser/handlers/if_else_statements.py:extract_else_elseif_fi"]}
{"id": "C38", "title": "Macro expansion terminates", "statement": "parse(content) terminates for every content.", "quantifier": "every content and macro definition set", "why_tests_cant": "Termination over all inputs.", "anchors": ["latex2json/parser/tex_parser.py:LatexParser.parse", "latex2json/parser/handlers/command_processor.py"]}
{"id": "C39", "title": "Citations are split into trimmed keys in order", "statement": "A citation token lists the comma-separated keys of the command in order, each trimmed.", "quantifier": "every key list", "why_tests_cant": "All key lists.", "anchors": ["latex2json/parser/handlers/content_command.py"]}
{"id": "C40", "title": "Parser instances do not share state", "statement": "What one LatexParser or BoxHandler instance saw never influences the output of another instance.", "quantifier": "every history over any number of instances", "why_tests_cant": "All interleavings of instances.", "anchors": ["latex2json/parser/packages/boxes.py:BoxHandler"]}
{"id": "C41", "title": "Key-value settings are parsed in order", "statement": "For keys and values free of ',' '=' and whitespace, \\setkeys{fam}{k1=v1,...,kn=vn} yields exactly those pairs in order, and a key without value gets 'true'.", "quantifier": "every list of pairs", "why_tests_cant": "Lists are unbounded.", "anchors": ["latex2json/parser/packages/keyval.py:KeyValHandler"]}
{"id": "C42", "title": "Token flattening is reversible", "statement": "flatten_tokens gives every non-plain token its own reference key, and replacing the keys in the flattened text recovers the token sequence, provided plain text does not contain a key.", "quantifier": "every token list", "why_tests_cant": "All token lists; key n must not be a prefix of key m.", "anchors": ["latex2json/parser/flatten.py:flatten_tokens"]}
{"id": "C43", "title": "A parameter after an escaped backslash is a parameter", "statement": "substitute_args(def, args) replaces #k also when it is directly preceded by a double backslash (\\\\#1 is a line break followed by parameter 1).", "quantifier": "every definition and argument list", "why_tests_cant": "All backslash runs.", "anchors": ["latex2json/utils/tex_utils.py:substitute_args"]}
{"id": "C44", "title": "Appendix sections are lettered A to Z", "statement": "In organize_content the number of every numbered section inside an appendix starts with a capital letter A..Z.", "quantifier": "all token lists with an appendix", "why_tests_cant": "the letter is chr(64+n) for an unbounded counter n that may also be 0; finitely many documents cannot show where it leaves the alphabet", "anchors": ["latex2json/structure/builder.py: TokenBuilder._update_section_numbering"]}
{"id": "C45", "title": "Tables keep every cell in its row with its spans", "statement": "parse_tabular(text) returns one list per non-blank row between the \\\\ outside braces (leading and trailing rows of empty cells removed) and in it one value per cell between the & outside braces; a cell \\multicolumn{n}{..}{x}, \\multirow{n}{..}{x} or their combination gives the parsed x with that colspan and rowspan, \\makecell{x} gives the parsed x, and any other cell its parsed text.", "quantifier": "every table text and cell parser", "why_tests_cant": "Rows, cells and nesting are unbounded.", "anchors": ["latex2json/parser/handlers/tabular.py:parse_tabular", "latex2json/parser/handlers/tabular.py:split_cells"]}
{"id": "C46", "title": "Table structures are put back unchanged", "statement": "extract_table_structures terminates on every text, and replacing the reference keys by the stored structures, in the order the table handler does it, gives back the text.", "quantifier": "every table text without the word TABLE_STRUCT", "why_tests_cant": "All nestings of multicolumn, multirow and makecell.", "anchors": ["latex2json/parser/handlers/tabular.py:extract_table_structures", "latex2json/parser/handlers/tabular.py:TabularHandler.handle"]}
{"id": "C47", "title": "Keys run the code of their last definition", "statement": "\\define@key{family}{key}[default]{code} makes later \\setkeys of that key in that family run code with the value as its argument, replaces an earlier definition of the same key and affects no other key.", "quantifier": "every history of definitions and settings", "why_tests_cant": "Histories and code blocks are unbounded.", "anchors": ["latex2json/parser/packages/keyval.py:KeyValHandler._handle_define_key_match", "latex2json/parser/packages/keyval.py:KeyValHandler._process_setkeys_token"]}
{"id": "C48", "title": "Section commands carry their level and numbering", "statement": "\\section, \\subsection, ... with n times sub (and \\paragraph likewise) give a token of level n+1 with the trimmed title; sections are numbered unless starred. Command names are accepted in any case.", "quantifier": "every number of subs, title and spelling", "why_tests_cant": "The nesting depth and the title are unbounded.", "anchors": ["latex2json/parser/handlers/content_command.py:ContentCommandHandler.handle", "latex2json/parser/handlers/content_command.py:ContentCommandHandler._create_token"]}
{"id": "C49", "title": "Content commands always make progress and never raise", "statement": "For every text ContentCommandHandler.handle returns; it consumes at least one and at most all characters when can_handle holds, none otherwise.", "quantifier": "every text", "why_tests_cant": "All texts, including malformed ones.", "anchors": ["latex2json/parser/handlers/content_command.py:ContentCommandHandler.handle"]}
{"id": "C50", "title": "BibTeX files are read faithfully", "statement": "BibTexParser.parse returns exactly the entries of a BibTeX file, in order, each with its lower-case type, its key and all its fields; an entry rendered by convert_fields_to_bibtex_str is parsed back to the same type, key and fields.", "quantifier": "every BibTeX file: any number of entries, fields, nesting of braces", "why_tests_cant": "Files are unbounded texts with nested braces; the interaction of the two search loops with the contents of values cannot be covered by examples.", "anchors": ["latex2json/parser/bib/bibtex_parser.py:BibTexParser.parse", "latex2json/parser/bib/bibtex_parser.py:BibTexParser.convert_fields_to_bibtex_str"]}
{"id": "C51", "title": "A single compressed file is unpacked inside the temporary directory", "statement": "When a .gz archive is not a tar archive, its content is written to one entry directly inside the temporary directory, whatever the name of the archive.", "quantifier": "every archive path", "why_tests_cant": "All names, including names made of dots or without extension.", "anchors": ["latex2json/tex_file_extractor.py:TexFileExtractor.process_compressed_file"]}
{"id": "C52", "title": "The main TeX file is the first one with a marker outside comments", "statement": "find_main_tex_file returns the first .tex file in walk order that can be read and has \\documentclass or \\begin{document} on some line before its comment, and raises exactly when there is none.", "quantifier": "every directory tree and file content", "why_tests_cant": "Trees and texts are unbounded; comments and escapes interact with the markers.", "anchors": ["latex2json/tex_file_extractor.py:TexFileExtractor.find_main_tex_file", "latex2json/tex_file_extractor.py:TexFileExtractor.is_main_tex_file"]}
{"id": "C53", "title": "Packages are looked up next to the file that loads them", "statement": "After LatexStyParser.parse_file returns, packages are again looked up in the directory that was current before the call.", "quantifier": "every package graph and every failure", "why_tests_cant": "All graphs and all failing files.", "anchors": ["latex2json/parser/sty_parser.py:LatexStyParser.parse_file", "latex2json/parser/sty_parser.py:LatexStyParser._parse_packages"]}
{"id": "C54", "title": "Macro definitions are read as written", "statement": "For every \\newcommand, \\renewcommand, \\providecommand, \\DeclareRobustCommand or \\DeclareMathOperator, the parser records the command word, the number of parameters, the default values and the body exactly as they are written, and consumes exactly the text of the definition.", "quantifier": "every definition text (starred or not, braced or bare name, any blanks, any number of parameters and defaults, any balanced body) followed by any text", "why_tests_cant": "The space of definition texts is infinite and the reading is done by one backtracking regular expression followed by a brace scan; tests fix a handful of spellings.", "anchors": ["latex2json/parser/handlers/new_definition.py:_handle_newcommand", "latex2json/parser/patterns.py:command_pattern"]}
{"id": "C55", "title": "A macro call expands to the body with the arguments of the call", "statement": "After any sequence of definitions, a call of a defined command is replaced by the body of its definition with the parameters replaced by the arguments of the call (missing optional arguments take their defaults, missing mandatory ones are empty), the text consumed is exactly the command word and its arguments, and a longer command word that merely starts with the name is not a call.", "quantifier": "every history of definitions, every command word, every text after it", "why_tests_cant": "Histories and argument texts are unbounded.", "anchors": ["latex2json/parser/handlers/command_processor.py:CommandProcessor.handle", "latex2json/parser/handlers/command_processor.py:process_newcommand"]}
{"id": "C56", "title": "The latest definition of a command wins", "statement": "When a command is defined several times, a call uses the most recent definition, whichever of the defining commands wrote it.", "quantifier": "every sequence of definitions of any kind, of the same and of other names", "why_tests_cant": "Quantifies over all histories.", "anchors": ["latex2json/parser/handlers/command_manager.py:register_command", "latex2json/parser/handlers/command_processor.py:all_commands"]}
{"id": "C57", "title": "expand_commands replaces the uses of macros and nothing else", "statement": "expand_commands replaces every use of a defined command in the text by its expansion until none is left, and leaves everything else, such as line breaks, as it was.", "quantifier": "every table of macros and every text", "why_tests_cant": "All tables and texts; the interaction between the order of replacement and word boundaries shows only on particular pairs.", "anchors": ["latex2json/parser/handlers/command_processor.py:expand_commands", "latex2json/utils/tex_utils.py:substitute_patterns"]}
{"id": "C58", "title": "\\edef is evaluated exactly once", "statement": "The body of an \\edef is expanded once, with the meanings its commands have at that moment, including the old meaning of the command being defined.", "quantifier": "every state of definitions and every \\edef", "why_tests_cant": "Quantifies over all states; the defect shows only for bodies that use the name being defined.", "anchors": ["latex2json/parser/tex_parser.py:_process_new_definition_token", "latex2json/parser/handlers/command_manager.py:process_definition"]}
{"id": "C59", "title": "\\let takes only its own tokens", "statement": "\\let\\new\\old and \\let\\new=\\old consume the two command words (and the equals sign, with blanks around it) and nothing after them.", "quantifier": "every pair of command words, every spelling of the assignment, every following text", "why_tests_cant": "All following texts.", "anchors": ["latex2json/parser/handlers/new_definition.py:_handle_let"]}
{"id": "C60", "title": "Arguments of \\def commands may nest braces to any depth", "statement": "A command defined by \\def\\name#1...#k{body} and called with k brace groups expands to the body with the contents of the groups, at any nesting depth inside the groups, and consumes exactly the call.", "quantifier": "every name, number of parameters, body and balanced arguments", "why_tests_cant": "Nesting depth is unbounded; the argument pattern is a regular expression.", "anchors": ["latex2json/parser/handlers/new_definition.py:_handle_def", "latex2json/parser/handlers/new_definition.py:_extract_def_pattern_parts"]}
{"id": "C61", "title": "A malformed command does not lose the document", "statement": "parse_file returns the tokens of the well-formed parts of a document even when one command or environment is malformed (an unclosed brace, a missing \\end).", "quantifier": "every document with a malformed command at any place", "why_tests_cant": "Any command can be malformed anywhere in an unbounded document.", "anchors": ["latex2json/parser/tex_parser.py:LatexParser.parse_file", "latex2json/parser/tex_parser.py:LatexParser._check_unknown_command", "latex2json/parser/packages/overpic.py"]}
{"id": "C62", "title": "Plain text comes out as it is", "statement": "A text without backslash, dollar sign, percent sign and opening brace is parsed to exactly one text token whose content is the text without its leading blanks; an empty or blank text gives no token.", "quantifier": "every such text, every parser state and option", "why_tests_cant": "All texts over an infinite alphabet, every set of handlers and macros.", "anchors": ["latex2json/parser/tex_parser.py:LatexParser.parse", "latex2json/parser/tex_parser.py:LatexParser.add_token"]}
{"id": "C63", "title": "A label belongs to the thing it labels", "statement": "A \\label is attached to the innermost environment around it or, outside environments, to the last heading or caption before it.", "quantifier": "every document and every place of a label in it", "why_tests_cant": "Nesting and order of environments, headings, notes and labels are unbounded.", "anchors": ["latex2json/parser/tex_parser.py:LatexParser._handle_label", "latex2json/parser/tex_parser.py:LatexParser._process_token"]}
{"id": "C64", "title": "Braces do not change the spacing", "statement": "Putting a word of a plain text in braces leaves the parsed text unchanged.", "quantifier": "every plain text and every word of it", "why_tests_cant": "All texts and positions.", "anchors": ["latex2json/parser/tex_parser.py:LatexParser.parse", "latex2json/parser/tex_parser.py:LatexParser.add_token"]}
{"id": "C65", "title": "No label is lost", "statement": "Every token a label is attached to is part of the output, so that references to the label can be resolved.", "quantifier": "every document", "why_tests_cant": "Nesting of environments is unbounded; which token is dropped depends on all of its contents.", "anchors": ["latex2json/parser/tex_parser.py:LatexParser._handle_label", "latex2json/parser/tex_parser.py:LatexParser.add_token"]}
{"id": "C66", "title": "Sections and paragraphs nest by level", "statement": "In the output of organize_content, at every depth: a section contains only deeper sections; what follows a section heading, up to the next heading that is not deeper (or the appendix or bibliography), is inside that section; paragraphs likewise contain what follows them and only deeper paragraphs; a chapter contains its sections.", "quantifier": "every token list: any order of levels, any nesting of containers, any builder history", "why_tests_cant": "The levels come in any order and number; only the stack discipline over the whole sequence decides where a token lands.", "anchors": ["latex2json/structure/builder.py:TokenBuilder._recursive_organize", "latex2json/structure/builder.py:TokenBuilder._manage_stack", "latex2json/parser/handlers/content_command.py:SECTION_LEVELS"]}
{"id": "C67", "title": "An environment is consumed exactly and reported as written", "statement": "EnvironmentHandler.handle on \\begin{name}...\\end{name} (with \\newtheorem and \\floatname names taken into account) consumes exactly up to the matching \\end, and its token carries the kind of the environment, whether it is numbered, its title and arguments, and all remaining text; comment environments vanish; an unclosed \\begin consumes only itself; a group is reported with its text; the position is never outside the text and nothing is reported without consuming.", "quantifier": "all texts, environment names, nested environments and registered theorem and float names", "why_tests_cant": "tests use a few environments and layouts; nesting, optional parts and names are unbounded", "anchors": ["latex2json/parser/handlers/environment.py: BaseEnvironmentHandler.handle, try_match_env, try_match_group, _handle_environment, ENV_TYPES, ENV_ARGS"]}
{"id": "C68", "title": "User-defined environments expand as TeX would", "statement": "A \\newenvironment / \\renewenvironment definition is consumed exactly and defines the name from then on (\\provideenvironment only if it is new); a use of it yields the begin part, the text and the end part, with every parameter replaced by the corresponding argument or default value.", "quantifier": "all definitions, argument counts, defaults and uses", "why_tests_cant": "the number of parameters, the definitions and the texts are unbounded", "anchors": ["latex2json/parser/handlers/environment.py: EnvironmentProcessor.expand_environments, EnvironmentHandler.handle_newenvironment"]}
{"id": "C69", "title": "An equation is consumed exactly and reported with its text, labels, kind and numbering", "statement": "Applied to text that starts with an equation ($..$, $$..$$, \\(..\\), \\[..\\] or one of the equation environments, starred or not), the equation handler returns the position just after the equation and one token whose content is the equation text without its \\label commands and with every embedded content command replaced by a numbered placeholder, whose labels are the labels in source order, and whose display/align/numbered marks are those of the environment; text that starts with no equation is left alone, and the outcome does not depend on set iteration order.", "quantifier": "every text, every equation kind, every list of labels and embedded commands, every iteration order of the name set", "why_tests_cant": "a test fixes one equation and one hash seed; the claim ranges over all bodies, label positions and iteration orders", "anchors": ["latex2json/parser/handlers/equation.py: EquationHandler.handle, _handle_labels, _extract_contentcommands_as_placeholders, PATTERNS"]}
{"id": "C70", "title": "The equation handler returns on every input", "statement": "For every input text the equation handler returns; in particular converting \\foo..\\endfoo pairs into environments comes to an end.", "quantifier": "every equation text", "why_tests_cant": "a non-terminating input can only be excluded by an argument over all inputs", "anchors": ["latex2json/parser/handlers/environment.py: convert_any_env_pairs_to_begin_end", "latex2json/parser/handlers/equation.py: EquationHandler.handle"]}
{"id": "C71", "title": "A list item is consumed exactly and reported with its whole body and title", "statement": "Applied to text starting with \\item, the item handler consumes exactly the item: up to the next \\item that is outside every environment and group of the body, or to the end of the text; its token has the optional title and the whole body. An item without a body is consumed without a token; any other text is left alone; the handler always returns.", "quantifier": "all list texts: any nesting of environments and groups, any titles", "why_tests_cant": "nesting of lists in items is unbounded, and which \\item ends an item depends on all of the text before it", "anchors": ["latex2json/parser/handlers/item.py: ItemHandler.handle, ITEM_PATTERN", "latex2json/parser/handlers/environment.py: find_pattern_while_skipping_nested_envs, BaseEnvironmentHandler.search, try_handle"]}
{"id": "C72", "title": "A loop command is skipped exactly", "statement": "Applied to \\forloop{..}{..}{..}{..} or \\foreach <vars> in {..}{..}, the loop handler consumes the command with its arguments and nothing of the text after it; any other text is left alone.", "quantifier": "all loop commands and following texts", "why_tests_cant": "arguments nest without bound and any text can follow", "anchors": ["latex2json/parser/handlers/for_loop_statements.py: ForLoopHandler.handle, PATTERNS"]}
{"id": "C73", "title": "Preprocessing leaves formulas unchanged", "statement": "Preprocessing expands macros and removes definitions only outside mathematics: every formula the equation handler recognises appears in the preprocessed text exactly as written, in place, and the text between is the result of rewriting alone.", "quantifier": "all texts, all definitions and macro tables, any number of formulas", "why_tests_cant": "the formulas are hidden behind numbered placeholders while the rest is rewritten; that none is lost, swapped or altered depends on the whole text", "anchors": ["latex2json/parser/tex_preprocessor.py: LatexPreprocessor._process_definitions_and_expand, restore_placeholder_blocks"]}
{"id": "C74", "title": "Verbatim code survives preprocessing character for character", "statement": "Whatever stands inside verbatim, lstlisting, algorithm and picture environments or \\verb|..| appears unchanged in the preprocessed document; outside, runs of blanks and line breaks are normalised.", "quantifier": "all documents and all placements of verbatim code", "why_tests_cant": "each preprocessing step could touch the code; the claim ranges over all code texts", "anchors": ["latex2json/parser/tex_preprocessor.py: LatexPreprocessor.preprocess, _extract_verbatim_blocks, ALL_VERBATIM_PATTERNS"]}
{"id": "C75", "title": "Definitions before \\documentclass take effect", "statement": "A document whose first lines come before \\documentclass (definitions, \\RequirePackage, \\PassOptionsToPackage) is processed with those lines taken into account; the class is loaded once and then the rest is processed.", "quantifier": "all documents and all texts before the class declaration", "why_tests_cant": "any text can precede the declaration", "anchors": ["latex2json/parser/tex_preprocessor.py: LatexPreprocessor.preprocess, _check_documentclass"]}
{"id": "C76", "title": "TeX quotation marks become plain quotation marks and nothing else changes", "statement": "A double opening mark is paired with the next double closing mark, a single one with the next single closing mark, as described by the specification; the replaced marks are the only characters that change.", "quantifier": "all texts", "why_tests_cant": "pairing depends on arbitrarily distant characters", "anchors": ["latex2json/parser/tex_preprocessor.py: QUOTE_PATTERNS, LatexPreprocessor._process_definitions_and_expand"]}
{"id": "C77", "title": "Preprocessing returns on every document", "statement": "For every document, preprocess returns.", "quantifier": "all documents and macro tables", "why_tests_cant": "only an argument over all inputs excludes an endless loop", "anchors": ["latex2json/parser/tex_preprocessor.py: LatexPreprocessor.preprocess, _process_definitions_and_expand"]}
{"id": "C78", "title": "A box command yields exactly its text", "statement": "A box command (\\fbox, \\parbox, \\makebox, \\raisebox, \\colorbox, \\scalebox, \\mbox, ...) written with its arguments is consumed exactly, optional arguments included, and yields its processed text argument and nothing else.", "quantifier": "every box command, every list of arguments, every text and every processing function", "why_tests_cant": "Arguments are unbounded nested text.", "anchors": ["latex2json/parser/packages/boxes.py:BoxHandler.handle", "latex2json/utils/tex_utils.py:flatten_all_to_string"]}
{"id": "C79", "title": "A used box yields what was saved last", "statement": "After any history of \\newsavebox/\\newbox, \\sbox/\\savebox/\\setbox and \\usebox commands, in any spelling of the box name, \\usebox yields the text its box was given last (nothing if it was declared afresh or never set), and each command is consumed exactly.", "quantifier": "every history of box commands", "why_tests_cant": "Histories are unbounded.", "anchors": ["latex2json/parser/packages/boxes.py:BoxHandler._handle_saved_box", "latex2json/parser/packages/boxes.py:BoxHandler._handle_setbox"]}
{"id": "C80", "title": "Using a box does not change it", "statement": "The tokens produced by one use of a box, and the text or labels that follow it, never change the box or what its other uses produced.", "quantifier": "every sequence of added tokens, labels, saves and uses", "why_tests_cant": "Histories are unbounded and the effect is on shared objects.", "anchors": ["latex2json/parser/tex_parser.py:LatexParser.add_token", "latex2json/parser/tex_parser.py:LatexParser._process_token", "latex2json/parser/tex_parser.py:LatexParser._handle_label", "latex2json/parser/packages/boxes.py:saved_boxes"]}
{"id": "C81", "title": "\\ifbool takes the branch of the boolean's value", "statement": "Of \\ifbool{name}{a}{b} exactly the branch selected by the current value of the boolean reaches the document.", "quantifier": "every text of an \\ifbool command and every history of the boolean", "why_tests_cant": "Histories and texts are unbounded, and the effect crosses the handler and the token factory.", "anchors": ["latex2json/parser/packages/etoolbox.py:EtoolboxHandler.handle", "latex2json/structure/token_factory.py:TokenFactory.create"]}
{"id": "C82", "title": "Conditionals with brace groups", "statement": "For \\ifthenelse, \\@ifundefined, \\@ifclassloaded, \\@ifpackageloaded, \\@ifstar and \\IfFileExists the condition and the branches reported are exactly the brace groups that follow, the end is just after the last one, and one of the branches is processed further.", "quantifier": "every text, every set of conditionals declared before", "why_tests_cant": "The groups may be nested to any depth.", "anchors": ["latex2json/parser/handlers/if_else_statements.py:try_handle_ifthenelse", "latex2json/parser/handlers/if_else_statements.py:IfElseBlockHandler._handle_atif", "latex2json/parser/handlers/if_else_statements.py:IfElseBlockHandler._handle_ifstar", "latex2json/parser/tex_preprocessor.py:LatexPreprocessor.process"]}
{"id": "C83", "title": "\\ifNAME is reported with its own branches", "statement": "For \\ifNAME...\\else...\\fi, with conditionals nested in the branches to any depth, the handler reports NAME, the two branches without outer blanks, and the end just after the matching \\fi; without a matching \\fi it reports nothing.", "quantifier": "every name, declared by \\newif or not, every pair of branches, every following text", "why_tests_cant": "Nesting is unbounded and the patterns of all declared names are combined.", "anchors": ["latex2json/parser/handlers/if_else_statements.py:IfElseBlockHandler.handle", "latex2json/parser/handlers/if_else_statements.py:IfElseBlockHandler.process_newif", "latex2json/parser/handlers/if_else_statements.py:IfElseBlockHandler._recompile_all_ifs"]}
{"id": "C84", "title": "The branch taken is that of the condition", "statement": "The parser goes on with the if branch when the condition holds and with the else branch otherwise: \\iffalse, and a conditional made by \\newif that was not set to true, give the else branch.", "quantifier": "every conditional and every history of settings", "why_tests_cant": "Texts and histories are unbounded.", "anchors": ["latex2json/parser/tex_parser.py:LatexParser.parse", "latex2json/parser/handlers/if_else_statements.py:IfElseBlockHandler.handle"]}
{"id": "C85", "title": "Every piece of a document is read exactly once and in order", "statement": "LatexParser.parse cuts the source into text between delimiters, brace groups and commands. Each piece starts where the previous one ended, is handed to exactly one component (macros, definitions, conditionals, legacy formatting, the first handler that accepts, labels and line breaks, unknown commands), a replacement text is read in place of what it replaces, and tokens come in the order of the pieces. No character of the text is dropped, also when the text ends with an escaped brace.", "quantifier": "every document that is made of such pieces, every set of components and every parser state", "why_tests_cant": "The pieces depend on each other through positions in a mutable string: a position that is off by one after one kind of piece shows only for particular neighbours.", "anchors": ["latex2json/parser/tex_parser.py:LatexParser.parse", "latex2json/parser/patterns.py:DELIM_PATTERN"]}
{"id": "C86", "title": "Style commands apply to exactly their argument", "statement": "A style command (\\textbf, \\emph, \\textsuperscript, ...) in front of a braced group is consumed exactly up to the closing brace of the group; its style is put before the styles of every token of the group and on nothing else, and not repeated; an empty group yields nothing; without a group the argument is the next character or command.", "quantifier": "every style command of the table, every group with any nesting and escapes, every list of tokens the argument parses to, every text after it", "why_tests_cant": "Tests use a few commands with short arguments; arguments are arbitrary nested texts and the tokens arbitrary lists with arbitrary styles.", "anchors": ["latex2json/parser/handlers/text_formatting.py:TextFormattingHandler._handle_styled", "latex2json/utils/tex_utils.py:flatten_group_token"]}
{"id": "C87", "title": "Text commands with arguments are consumed exactly", "statement": "\\citetext, \\frac and its variants, \\texorpdfstring, \\textcolor, \\twocolumn[..], \\subfloat[..]{..} and \\romannumeral take exactly their arguments, however nested, and yield the parsed argument: a fraction reads numerator / denominator, \\texorpdfstring its second argument, \\textcolor its text with the colour as style, \\romannumeral the Roman numeral of the number.", "quantifier": "all argument texts, with any nesting, blanks between arguments, optional colour models, all numbers and all following texts", "why_tests_cant": "The arguments and what they parse to are unbounded.", "anchors": ["latex2json/parser/handlers/text_formatting.py:TextFormattingHandler.handle"]}
{"id": "C88", "title": "The preprocessor removes definitions and rewrites commands from left to right", "statement": "LatexPreprocessor.preprocess removes every definition and package declaration from the text, uses it from that place on, replaces macro uses, formatting commands and conditionals by what their component answers and reads the replacement again, and leaves formulas and all other text as they are, in order. \\addto\\cmd{...} only loses its header: its argument is processed like any text.", "quantifier": "every document, every set of definitions, packages, macros and conditionals", "why_tests_cant": "The effect of one round changes the text the next round sees; documents and definition histories are unbounded.", "anchors": ["latex2json/parser/tex_preprocessor.py:LatexPreprocessor._process_definitions_and_expand", "latex2json/parser/tex_preprocessor.py:ADD_TO_PATTERN"]}
{"id": "C89", "title": "Font and size switches style exactly their scope", "statement": "A font or size switch (\\bf, \\itshape, \\large, ...) is replaced by the corresponding command with an argument (\\textbf{...}): the argument is the text up to the next switch of the same kind that is not inside a group or environment, up to the brace that closes the surrounding group, or up to the end, and nothing outside it is changed or lost; in front of a group only the group is the argument.", "quantifier": "every font and size switch of the tables, every following text with any nesting of groups and environments", "why_tests_cant": "The text after a switch is arbitrary; where the scope ends depends on arbitrarily deep nesting.", "anchors": ["latex2json/parser/handlers/legacy_formatting.py:LegacyFormattingHandler.handle", "latex2json/utils/tex_utils.py:find_pattern_while_skipping_nested_envs"]}
{"id": "C90", "title": "Colour switches colour exactly their scope", "statement": "\\color{c}, with or without a colour model, is replaced by \\textcolor{c}{...} around the text up to the next \\color or \\normalcolor outside groups and environments, the closing brace of the group or the end; \\normalcolor itself disappears and the following text is kept.", "quantifier": "every colour, colour model and following text", "why_tests_cant": "The text after a colour switch is arbitrary.", "anchors": ["latex2json/parser/handlers/legacy_formatting.py:LegacyFormattingHandler.handle"]}
{"id": "C91", "title": "Every \\bibitem becomes one bibliography entry", "statement": "Parsing a bibliography made of \\bibitem[label]{key} text yields exactly one entry per item that has a text, in source order, with the stripped key, the stripped label (or none) and the text up to the next \\bibitem, stripped and without \\newblock; if there is an environment whose name ends in bibliography only the inside of the first one is read.", "quantifier": "every text, number of items, labels, keys, bodies and blanks", "why_tests_cant": "The number and contents of the items are unbounded.", "anchors": ["latex2json/parser/bib/bibitem_parser.py:BibItemParser.parse"]}
{"id": "C92", "title": "\\bysame is replaced by the author of the previous entry", "statement": "In the text of an entry, \\bysame is replaced by the author of the previous entry, unchanged, and parsing never raises.", "quantifier": "every list of items and every author text", "why_tests_cant": "Author names are arbitrary text, including accents written as commands.", "anchors": ["latex2json/parser/bib/bibitem_parser.py:BibItemParser.parse"]}
{"id": "C93", "title": "amsrefs bibliographies become one entry per \\bib", "statement": "For every text, parsing a \\bib bibliography (bibdiv) ends. Every \\bib{key}{type}{fields} gives one entry with that key and type, in order; field names are in lower case, values have their grouping braces removed and nothing else, and the values of a repeated field are joined by ' and '.", "quantifier": "every text; every list of \\bib entries with any fields, nesting of braces and separators", "why_tests_cant": "Termination and the pairing of keys, types, fields and values must hold for every arrangement of braces, commas and blanks.", "anchors": ["latex2json/parser/bib/bibdiv_parser.py:BibDivParser.parse"]}
{"id": "C94", "title": "The format of a bibliography is recognised by what it contains", "statement": "BibParser.parse reads a text with a bibdiv environment as \\bib entries, otherwise one with @type{ as BibTeX, otherwise \\bibitem entries, and a text with none of these gives no entries. No entry of the bibliography is lost by choosing the wrong format or by removing comments.", "quantifier": "every bibliography text", "why_tests_cant": "The choice is made by searching the whole text for patterns, so it depends on every character of every entry.", "anchors": ["latex2json/parser/bib/bib_parser.py:BibParser.parse"]}
{"id": "C95", "title": "A bibliography is read from the file it names, or from a fallback", "statement": "BibParser.parse_file reads the file of the given name (as it is when it has the extension .bbl or .bib, else with .bbl, else with .bib); if that is missing or empty, main.bbl in the same directory, then the first .bbl file there, and otherwise returns no entries. It does not raise because a file is missing.", "quantifier": "every path, every content of the file system", "why_tests_cant": "The result depends on the whole state of a directory; tests try a few layouts.", "anchors": ["latex2json/parser/bib/bib_parser.py:BibParser.parse_file"]}
{"id": "C96", "title": "Code is taken over verbatim", "statement": "A verbatim or lstlisting environment and \\verb with any delimiter become one code token: the text up to the first matching end, whatever commands, comment signs or braces are in it, with the listing options as title and the display of \\verb marked inline; nothing else is taken for code and the text after the end is untouched.", "quantifier": "every text", "why_tests_cant": "Code may contain any characters, including what looks like LaTeX.", "anchors": ["latex2json/parser/handlers/code_block.py:CodeBlockHandler.handle"]}
{"id": "C97", "title": "Author declarations give one list entry per author", "statement": "\\author{..} (with or without an option) gives one entry per author between the words \\and, in order, each parsed on its own and blank ones left out; \\email, \\affil, \\affiliation, \\address give their parsed argument and \\thanks its text as a footnote. Exactly the command and its argument are used up, and a malformed argument does not end the parse.", "quantifier": "every argument with any nesting, every number of authors, every following text", "why_tests_cant": "Author blocks are arbitrary nested text of any length.", "anchors": ["latex2json/parser/handlers/author.py:AuthorHandler.handle"]}
{"id": "C98", "title": "Accent commands become accented characters", "statement": "Each of the 26 accent commands, followed by a group or a character, becomes a text token with the accent composed onto the first character of its base; exactly the command and the base are used up, and other commands that start with the same letters are left alone.", "quantifier": "every accent command, base, blanks and following text", "why_tests_cant": "The base and the text after it are arbitrary.", "anchors": ["latex2json/parser/handlers/diacritics.py:DiacriticsHandler.handle"]}
{"id": "C99", "title": "A formatting command is always consumed and never harms the text around it", "statement": "FormattingHandler.handle uses up at least one character and not more than the text, or does nothing and is then also not offered the text by can_handle; of the token before it at most a trailing number is removed; it does not raise.", "quantifier": "every text, every list of excluded patterns, every previous token", "why_tests_cant": "76 regular expressions are tried in turn on an arbitrary text; progress and bounds must hold for each of them.", "anchors": ["latex2json/parser/handlers/formatting.py:FormattingHandler.handle", "latex2json/parser/handlers/formatting.py:FormattingHandler.can_handle", "latex2json/parser/handlers/formatting.py:strip_trailing_number_from_token"]}
{"id": "C100", "title": "Layout commands without arguments disappear or become white space", "statement": "\\noindent, \\centering, \\maketitle, \\clearpage and some 75 other layout commands disappear, page breaks become a new line, \\quad, \\space and the like a blank; exactly the command is used up, no command that merely begins with such a name is touched, and no text after or before the command is lost.", "quantifier": "every such command, every following text that does not continue the name, every previous token", "why_tests_cant": "The text after the command is arbitrary and earlier patterns of the table could match first.", "anchors": ["latex2json/parser/handlers/formatting.py:FormattingHandler.handle", "latex2json/parser/handlers/formatting.py:RAW_PATTERNS"]}
{"id": "C101", "title": "Formatting commands are removed together with their arguments", "statement": "\\hypersetup{..}, \\geometry{..}, \\date{..} and other set-up commands are removed with exactly their group, however nested; \\ensuremath gives an inline formula with its argument, \\hphantom blanks of the same length, \\pagestyle{..} and similar commands disappear with their argument, \\vspace and \\hspace become white space, \\num gives its number, rounded as the options ask.", "quantifier": "every argument, every blank before it and every following text", "why_tests_cant": "Arguments are arbitrary texts with any nesting.", "anchors": ["latex2json/parser/handlers/formatting.py:FormattingHandler.handle", "latex2json/parser/handlers/formatting.py:FormattingHandler.format_number"]}
{"id": "C102", "title": "Reading a definition always ends, within the text", "statement": "NewDefinitionHandler.handle terminates on every text; the position it returns never lies behind the end of the text, is positive whenever a token is returned and is not negative; it raises no exception; a text that does not begin with a backslash, or that can_handle refuses, gives no token and position 0.", "quantifier": "every text", "why_tests_cant": "A unit test tries some definitions; the loop over \\expandafter and \\csname, the recursion and the position arithmetic must be right for every text.", "anchors": ["latex2json/parser/handlers/new_definition.py:NewDefinitionHandler.handle", "latex2json/parser/handlers/new_definition.py:_handle_def_prefix", "latex2json/parser/handlers/new_definition.py:_handle_namedef"]}
{"id": "C103", "title": "Declarations are recorded as written", "statement": "A declaration (\\newtheorem, \\crefname, \\floatname, \\newcounter, \\stepcounter, \\setcounter, \\newif, \\newtoks, \\newlength, \\setlength and its relatives, \\newcount, \\newdimen, \\newskip, \\newmuskip, \\newfam, \\definecolor, \\DeclarePairedDelimiter, \\font) gives one token with exactly the names and texts written in it, uses up exactly its own text, and does not depend on what follows; \\newboolean and \\newcolumntype are used up without a token.", "quantifier": "every name, argument text, blank and following text", "why_tests_cant": "Names, bodies and following texts are unbounded; regular expressions decide where a name ends.", "anchors": ["latex2json/parser/handlers/new_definition.py:NewDefinitionHandler.handle", "latex2json/parser/handlers/new_definition.py:_handle_newtheorem", "latex2json/parser/handlers/new_definition.py:_parse_varname_from_brace_or_backslash", "latex2json/parser/handlers/new_definition.py:_handle_font"]}
{"id": "C104", "title": "Definitions with built names", "statement": "\\expandafter and \\noexpand in front of a definition change nothing but the end position; a command defined by \\def (or \\edef, \\gdef, \\xdef, with \\long) with \\csname name\\endcsname, by \\@namedef{name}, or by \\let\\csname name\\endcsname is recorded under that name with the body and number of parameters as written, both \\name and \\csname name\\endcsname count as uses, and exactly the text of the definition is used up.", "quantifier": "every keyword, name, spacing, number of parameters, balanced body and following text", "why_tests_cant": "the prefix loop rewrites the text while it reads it and is sensitive to what comes next; tests have a few literal definitions", "anchors": ["/repo/latex2json/parser/handlers/new_definition.py:NewDefinitionHandler.handle", "/repo/latex2json/parser/handlers/new_definition.py:_handle_def_prefix"]}
{"id": "C105", "title": "Definitions of commands as written", "statement": "A \\def, \\edef, \\gdef or \\xdef (also with \\long), a \\newcommand or one of its relatives, a \\let, and a \\DeclareMathAlphabet or \\DeclareSymbolFontAlphabet is recorded with the name, body, number of parameters and default values that it has, whatever follows it, and exactly its own text is used up.", "quantifier": "every name, spacing, number of parameters, balanced body and following text", "why_tests_cant": "names, bodies and following texts are unbounded; a test fixes one of each", "anchors": ["/repo/latex2json/parser/handlers/new_definition.py:NewDefinitionHandler.handle"]}
{"id": "C106", "title": "The extracted preamble", "statement": "LatexPreamble.get_preamble always comes to an end, and its output consists of the package lines (\\usepackage, \\RequirePackage, \\use\u2026), the \\makeatletter\u2026\\makeatother blocks and the definitions that stand, outside comments, between \\documentclass and \\begin{document}: each of them whole, once, in its order, on a line of its own, and nothing else.", "quantifier": "every file content", "why_tests_cant": "files are unbounded and every piece decides where the next one is looked for; tests have a few literal preambles", "anchors": ["/repo/latex2json/parser/tex_preamble.py:LatexPreamble.get_preamble", "/repo/latex2json/parser/tex_preamble.py:LatexPreamble._preprocess_content"]}
{"id": "C107", "title": "Title commands, pictures and library lines of packages", "statement": "A titlesec command (\\titleformat, \\titlespacing with or without *, \\titlelabel, \\titlecontents, \\titleline with or without [where]) is removed from the text together with exactly its arguments and gives no token; incomplete arguments never move the reader backwards or past the end of the text. A closed tikzpicture, picture or pgfpicture becomes one diagram token that carries the environment's name and its content (inner environments of the same name included), an overpic becomes the token of its image file, and the text goes on behind the \\end that closes the environment. \\usetikzlibrary, \\usepgflibrary, \\usepgfplotslibrary and \\pgfplotsset are removed with their group. An environment that is not closed does not stop the reader (false).", "quantifier": "every text that begins with such a command or environment, every blank text between a command and its brace, every argument, every content, every position of the closing \\end", "why_tests_cant": "tests run one document per package; how far the argument reader and the search for the closing \\end go depends on the nesting of the whole remaining text", "anchors": ["latex2json/parser/packages/titlesec.py: TitlesecHandler, PATTERNS, DELIMITERS", "latex2json/parser/packages/tikz_pgf.py: TikzPGFHandler", "latex2json/parser/packages/overpic.py: OverpicHandler", "latex2json/utils/tex_utils.py: extract_delimited_args, find_matching_env_block, extract_args"]}
{"id": "C108", "title": "Compiled bibliographies are converted entry by entry", "statement": "When the bibliography is the compiled file of biber (\\entry{key}{type}{options} ... \\endentry), every entry gives one BibTeX entry, in the order of the file, and text between entries gives nothing. The entry has the key and type written in its header; the authors of \\name{author} printed as family name, comma, first letter of the given name and a period, joined by ' and '; every \\field{name}{value} with its value as written, journaltitle under the name journal, labelnamesource and labeltitlesource left out, a later field replacing an earlier one of the same name; the eprint number of \\verb{eprint}. \\bibinitperiod is a period and \\bibrangedash (with the blanks between it and a word) a double dash everywhere. The fields are printed as author, title, year, eprint, eprinttype, eprintclass and then the others in their order. No author, field or entry is lost or overwritten.", "quantifier": "every file of any number of entries, every text between them, every key, type, list of authors with names in any order and other parts around them, every list of fields with closed values, with or without eprint, every position of abbreviations", "why_tests_cant": "tests convert two fixed entries; the search for the end of every value depends on nesting, the search for authors on everything written between them, and the effect of one entry must not depend on the others", "anchors": ["latex2json/parser/bib/compiled_bibtex.py: process_compiled_bibtex_to_bibtex, parse_compiled_bibtex_entry, convert_to_regular_bibtex, apply_pattern_replacements"]}
{"id": "C109", "title": "References of a compiled bibliography", "statement": "Parsing the content of a compiled bibliography gives one reference for each of its entries, in order: the type in lower case, the key, and exactly the fields of the entry (names in lower case, values without the blanks around them) in the order in which they are printed.", "quantifier": "every compiled file of at least one entry whose types and field names are words, whose keys have no comma or @, and whose values are closed and have no @", "why_tests_cant": "the converted text is parsed again by another grammar: the two must agree on every value, separator and brace, which examples cannot settle", "anchors": ["latex2json/parser/bib/compiled_bibtex.py: process_compiled_bibtex_to_bibtex, is_compiled_bibtex", "latex2json/parser/bib/bibtex_parser.py: BibTexParser.parse"]}
{"id": "C110", "title": "LaTeX commands become their characters", "statement": "In a text made of characters, \\uXXXX sequences, commands of the table and commands the table does not have, converting replaces every command of the table (with the empty braces behind its name, if any) by its characters and leaves everything else where it is; this holds for every command that no command looked for sooner (\\text..., then \\math..., then font commands, then the others, each in the order of the table) begins or continues, which is 2024 of the 2677 keys. Not every key is converted; the result of one replacement can join the text behind it to another command; the second backslash of a line break is read as the beginning of a command.", "quantifier": "every text that is a sequence of such pieces, of any length, where a command that ends in a letter is not followed by a letter", "why_tests_cant": "five rounds of replacement over 2677 patterns, each reading the result of the one before: whether a key is hidden by another key, in another round or earlier in the same one, or joined to its neighbours, cannot be settled by one example per key", "anchors": ["latex2json/latex_maps/latex_unicode_converter.py: LatexUnicodeConverter.convert, _create_categorized_regex_patterns", "latex2json/latex_maps/_latex2unicode_map.py: latex2unicode"]}
{"id": "C111", "title": "\\uXXXX sequences become their character", "statement": "A \\u followed by four to six hexadecimal digits becomes the character of that number, and the rest of the text is converted as if the character had been written there. Refuted: four digits are not the end of a sequence when more characters that could be digits follow; a pair of surrogates does not become its character; a number beyond Unicode is not left as it is written.", "quantifier": "every sequence of four to six hexadecimal digits up to 10FFFF whose character is not a backslash or a brace, before every text of recognisable pieces", "why_tests_cant": "the number of digits taken depends on what follows, for every following text", "anchors": ["latex2json/latex_maps/latex_unicode_converter.py: UNICODE_PATTERN, LatexUnicodeConverter.convert"]}
{"id": "C112", "title": "Text without commands is not touched", "statement": "Converting a text with no backslash and no opening brace gives the same text; a command the table does not have stays as it is, and what follows it is converted as if it stood alone. Refuted: braces without any command can disappear ({'} becomes a prime).", "quantifier": "every text with no backslash and no opening brace; every command of which no key is a beginning or a continuation, before every text of recognisable pieces", "why_tests_cant": "2677 patterns, none of which may match anywhere in an arbitrary text", "anchors": ["latex2json/latex_maps/latex_unicode_converter.py: LatexUnicodeConverter.convert"]}
{"id": "C113", "title": "A UTF-8 file is read as its text", "statement": "A file holding some text in UTF-8, which the detector takes for UTF-8, for ASCII or for nothing in particular, is read as exactly that text, every carriage return or carriage return and line feed becoming one line feed; so a text with no carriage return is read unchanged.", "quantifier": "every text of Unicode characters of any length, every answer of the detector that selects UTF-8 for the first ten thousand bytes", "why_tests_cant": "Unit tests read a few small files; the claim covers every text, every place where the ten-thousand-byte sample may cut it, and every character length.", "anchors": ["latex2json/utils/encoding.py: read_file, detect_encoding"]}
{"id": "C114", "title": "Damaged bytes become one replacement character each", "statement": "In a file taken for UTF-8 that also holds bytes of another encoding, each such byte is read as one replacement character and every character around them is read as it is; so a file whose first ten thousand bytes are ASCII and that continues in another encoding loses no neighbouring text.", "quantifier": "every sequence of characters and stray bytes that no UTF-8 sequence can absorb, of any length", "why_tests_cant": "A test tries one stray byte in one place; the claim is about every arrangement of stray bytes among characters.", "anchors": ["latex2json/utils/encoding.py: read_file, detect_encoding"]}
{"id": "C115", "title": "Reading a file never fails for its encoding", "statement": "Whatever bytes a file holds, reading it gives some text and never a decoding error, provided Python has the codec that the detector names; a file taken for ISO-8859-1 is read as one character for each byte, and a byte that the chosen encoding does not define does not change how the other bytes are read.", "quantifier": "every sequence of bytes and every answer of the detector", "why_tests_cant": "The bytes are arbitrary, and the answer of the detector is not controlled by the test.", "anchors": ["latex2json/utils/encoding.py: read_file, detect_encoding"]}
{"id": "C116", "title": "References and links are read exactly", "statement": "\\ref, \\eqref, \\pageref and \\autoref (starred or not), \\hyperref[label]{text}, \\href{address}{text}, \\url, \\path and \\doi with any blanks before their groups give one token with the trimmed label or address and the trimmed text, whatever balanced text the groups hold, and end exactly at the closing brace.", "quantifier": "every balanced argument, every amount of blanks, every text behind the command, every expansion of the argument", "why_tests_cant": "Arguments are arbitrary balanced texts of any nesting depth and any text may follow.", "anchors": ["latex2json/parser/handlers/content_command.py: ContentCommandHandler.handle, _create_token, PATTERNS"]}
{"id": "C117", "title": "Footnotes and captions are read exactly", "statement": "\\footnote, \\footnotetext, \\caption, \\subcaption and \\captionof with or without star, optional argument and blanks give one token with their trimmed text, and \\footnotemark its mark or an asterisk; the command ends exactly at its last brace or bracket.", "quantifier": "every balanced text, every optional argument without a closing bracket, every text behind the command", "why_tests_cant": "Arguments are arbitrary balanced texts of any nesting depth and any text may follow.", "anchors": ["latex2json/parser/handlers/content_command.py: ContentCommandHandler.handle, _create_token, PATTERNS"]}
{"id": "C118", "title": "Graphics name their page", "statement": "\\includegraphics[options]{file} gives the file and, if the options name a page, exactly that number; \\includepdf[options]{file} gives the file and the page ranges as they are written.", "quantifier": "every list of options without a closing bracket, every position of the page among them, every number of digits", "why_tests_cant": "Options are arbitrary texts: the page may come first, last or not at all, and similar keys may precede it.", "anchors": ["latex2json/parser/handlers/content_command.py: ContentCommandHandler.handle, _create_token, PATTERNS"]}
{"id": "C119", "title": "Citation aliases", "statement": "After any number of \\defcitealias{key}{text}, \\citetalias{keys} and \\citepalias{keys} give one citation for each key in order, titled with the text that was defined last for that key; a parser sees only the aliases of its own document.", "quantifier": "every history of definitions and uses, over any number of handler objects used in any order", "why_tests_cant": "The claim is about every sequence of definitions and every interleaving of several parsers in one process.", "anchors": ["latex2json/parser/handlers/content_command.py: ContentCommandHandler.citealias, clear, handle"]}
{"id": "C120", "title": "Headings, files and dropped commands", "statement": "\\part and \\chapter (starred or not), \\title, \\abstract, \\keywords, \\input, \\include, \\bibliography and \\addbibresource give one token of their kind with the trimmed argument, \\graphicspath, \\bookmark and the \\pdfbookmark commands give nothing, and each ends exactly at its closing brace; \\appendix gives an appendix token.", "quantifier": "every balanced argument, every amount of blanks, every text behind the command", "why_tests_cant": "Arguments are arbitrary balanced texts of any nesting depth and any text may follow.", "anchors": ["latex2json/parser/handlers/content_command.py: ContentCommandHandler.handle, _create_token, PATTERNS"]}
{"id": "C121", "title": "The saved JSON says exactly what the answer holds", "statement": "to_json gives a valid JSON text (RFC 8259) that denotes an object with the tokens and the colour map, with the same strings, numbers, order and nesting, and nothing else; different answers are different texts; save_to_json can write it as UTF-8.", "quantifier": "every list of tokens of any nesting, every string of any characters, every integer", "why_tests_cant": "Strings are arbitrary: quotes, backslashes, control characters and any code point may occur at any depth.", "anchors": ["latex2json/tex_reader.py: TexReader.to_json, save_to_json"]}
{"id": "C122", "title": "to_json shows every field of every token", "statement": "The JSON of a token is an object with all its fields that are not None, in the order of declaration, and recursively so for the tokens in them, whatever the nesting of sections, environments, tables and cells; empty cells stay null; nothing else is written.", "quantifier": "every token, any nesting of tokens in contents, cells, titles and proofs, any strings", "why_tests_cant": "The claim is about arbitrarily nested trees of tokens of all classes.", "anchors": ["latex2json/structure/tokens/base.py: BaseToken.model_dump, serialize_value, MathEnvToken.model_dump", "latex2json/structure/tokens/document.py: SectionToken.model_dump", "latex2json/structure/tokens/tabular.py: TabularToken.model_dump", "latex2json/tex_reader.py: TexReader.to_json"]}
{"id": "C123", "title": "A reader that is used again gives what a new one gives", "statement": "The result of TexReader.process_file does not depend on what this reader or other readers in the process did before, including files that failed half way: no macro, conditional, label, colour, box, counter, environment or alias of an earlier document is seen.", "quantifier": "every history of readers made and files processed, with or without failures, every computation of the parser and the builder", "why_tests_cant": "The claim is about all histories; a test sees a few.", "anchors": ["latex2json/tex_reader.py: TexReader.process_file, clear", "latex2json/parser/tex_parser.py: LatexParser.clear", "latex2json/parser/tex_preprocessor.py: LatexPreprocessor.clear", "latex2json/parser/sty_parser.py: LatexStyParser.clear", "latex2json/parser/handlers/equation.py: EquationHandler.clear"]}
{"id": "C124", "title": "Each message is logged once, in plain text in the file, with colours only on terminals", "statement": "After setup_logger(name, level, log_file), every message of at least that level whose arguments fit its template adds exactly one line to the console and one to the file, in order, whatever was set up before; the lines of the file are time, name, level and text without colour codes, followed by the traceback if there is one; setting up another file leaves the earlier one as it is; colour codes are written only when the console is a terminal.", "quantifier": "every history of setups and messages, every template, arguments, level and traceback", "why_tests_cant": "The console formatter changes the record that the file handler gets next and has to restore it for every message; histories of setups are unbounded.", "anchors": ["latex2json/utils/logger.py:ColoredFormatter", "latex2json/utils/logger.py:setup_logger"]}
