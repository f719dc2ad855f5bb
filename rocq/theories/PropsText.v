(** Properties C08 and C12-C17: environments, text helpers, macro parameters,
    flatten, Roman numerals.  Specification vocabulary: EnvSpec.v, SubstSpec.v,
    TextSpec.v, the first part of RomanProofs.v and [nonspace], [leaves_of],
    [single_spaced], [only_spaces], [trimmed] in TextProofs.v. *)
From Coq Require Import List NArith ZArith PeanoNat Bool String Lia.
From Verif Require Import PyStr Regex RegexLocal DelimSpec EnvModel EnvSpec EnvProofs SubstModel SubstSpec SubstProofs
  TextModel TextSpec TextProofs TextProofs2 TextProofs3 RomanProofs.
Import ListNotations.
Notation length := List.length.
Notation concat := List.concat.
Open Scope list_scope.

(** * C08 *)
(** [find_matching_env_block(text, name, k)]: the first \begin{name} at or after
    k and the \end{name} that closes it, or no result when there is no such
    pair. *)
Theorem C08_environment_block : forall text name k, let body := skipn k text in
  (exists i j s e, first_marker (lit "\begin") name body 0 i j /\ closed_at name body j s e /\
     find_matching_env_block text name k = Some (k + i, k + e, strip (slice j s body))) \/
  ((forall i j s e, first_marker (lit "\begin") name body 0 i j -> ~ closed_at name body j s e) /\
     find_matching_env_block text name k = None).
Proof. exact fmeb_spec. Qed.
Theorem C08_closing_marker_is_unique : forall name text pos s1 e1 s2 e2,
  closed_at name text pos s1 e1 -> closed_at name text pos s2 e2 -> s1 = s2 /\ e1 = e2.
Proof. exact closed_fun. Qed.
(** [extract_nested_content_pattern] for two patterns that match no empty
    string; it always returns. *)
Theorem C08_nested_pattern : forall b e, 0 < minlen b -> 0 < minlen e -> forall text,
  (exists bm s t, re_search_from b text 0 = Some bm /\ pclosed_at b e text (m_end bm) s t /\
     extract_nested_content_pattern text b e = Some (Some (m_start bm, t, slice (m_end bm) s text))) \/
  ((forall bm s t, re_search_from b text 0 = Some bm -> ~ pclosed_at b e text (m_end bm) s t) /\
     extract_nested_content_pattern text b e = Some None).
Proof. intros b e Hb He text. exact (encp_spec b e text Hb He). Qed.
Example C08_case : find_matching_env_block (lit "x\begin{a} 1 \begin {a}2\end{a}\end{b}\end{a}y\end{a}") (lit "a") 0
  = Some (1, 45, lit "1 \begin {a}2\end{a}\end{b}").
Proof. vm_compute. reflexivity. Qed.
Example C08_case_none : find_matching_env_block (lit "\begin{a}\begin{a}\end{a}") (lit "a") 0 = None.
Proof. vm_compute. reflexivity. Qed.

(** * C12 *)
(** False for texts that contain the internal marker. *)
Theorem C12_nonspace_kept_refuted : exists text, nonspace (normalize_whitespace_and_lines text) <> nonspace text.
Proof. exact normalize_refuted. Qed.
Theorem C12_nonspace_kept_partial : forall text, ~ occurs (lit "<PARA_BREAK>") text ->
  nonspace (normalize_whitespace_and_lines text) = nonspace text.
Proof. exact normalize_nonspace. Qed.
(** The exact result: every maximal run of spaces, tabs and newlines becomes
    one space, or one newline if it has at least two newlines; then trimmed. *)
Theorem C12_normalize_partial : forall text o, ~ occurs (lit "<PARA_BREAK>") text -> respaced text o ->
  normalize_whitespace_and_lines text = strip o.
Proof. exact normalize_exact. Qed.
Theorem C12_respaced_function : forall t, exists o, respaced t o /\ forall o', respaced t o' -> o' = o.
Proof. exact respaced_unique. Qed.
Print Assumptions C12_normalize_partial.
Print Assumptions C12_respaced_function.
Example C12_case : normalize_whitespace_and_lines (lit "  a  b" ++ [10;32;10;9]%N ++ lit "c" ++ [10]%N ++ lit "d ")
  = lit "a b" ++ [10]%N ++ lit "c d".
Proof. vm_compute. reflexivity. Qed.

(** * C13 *)
(** The result: replace each line-break command by a space, then join the
    words by single spaces. *)
Theorem C13_words_joined : forall t, exists o l,
  breaks_to_spaces t o /\ words_of o l /\ strip_latex_newlines t = join [c_sp] l.
Proof. exact sln_words. Qed.
Theorem C13_spec_is_functional : forall s o o', breaks_to_spaces s o -> breaks_to_spaces s o' -> o = o'.
Proof. intros s o o' H H'. exact (breaks_fun s o H o' H'). Qed.
Theorem C13_one_trimmed_line : forall t,
  single_spaced (strip_latex_newlines t) /\ only_spaces (strip_latex_newlines t) /\ trimmed (strip_latex_newlines t).
Proof. exact sln_single. Qed.
Theorem C13_no_break_command_left : forall t, no_break_commands (strip_latex_newlines t).
Proof. exact sln_clean. Qed.
Theorem C13_idempotent : forall t, strip_latex_newlines (strip_latex_newlines t) = strip_latex_newlines t.
Proof. exact sln_idem. Qed.
Example C13_case : strip_latex_newlines (lit " a\\ b" ++ [10]%N ++ lit " c\newline d\x ") = lit "a b c d\x".
Proof. vm_compute. reflexivity. Qed.

(** * C14 *)
(** Every definition has exactly one reading as characters, escaped hashes and
    parameters. *)
Theorem C14_reading_exists_and_is_unique : forall s,
  exists ps, reads_as s ps /\ render_all ps = s /\ forall ps', reads_as s ps' -> ps' = ps.
Proof.
  intros s. destruct (reads_exists s) as (ps & H). exists ps. split; [exact H|]. split; [exact (reads_render s ps H)|].
  intros ps' H'. exact (reads_fun s ps' H' ps H).
Qed.
Theorem C14_simultaneous_substitution : forall isalpha definition args math ps,
  reads_as definition ps -> no_zero ps ->
  (params ps = [] -> substitute_args isalpha definition args math = definition) /\
  (forall m, min_hashes_of ps m ->
     substitute_args isalpha definition args math = subst_pieces isalpha math args m [] ps).
Proof. exact substitute_args_spec. Qed.
Example C14_case : substitute_args (fun c => N.leb 97 c) (lit "a#1\#2##1#2#12") [Some (lit "#2"); Some (lit "x")] false
  = lit "a#2\#2##1x#12".
Proof. vm_compute. reflexivity. Qed.
Example C14_case_math : substitute_args (fun c => N.leb 97 c) (lit "\a#1b #2 c") [Some (lit "x"); Some (lit "y")] true
  = lit "\a{x}b y c".
Proof. vm_compute. reflexivity. Qed.

(** * C15 *)
Theorem C15_zero_parameter_refuted : exists definition args,
  reads_as definition [PParam 1 (lit "0")] /\
  substitute_args (fun _ => false) definition args false <> definition.
Proof.
  exists (lit "#0"), [Some (lit "a")]. split.
  - change (lit "#0") with (repeat c_hash 1 ++ lit "0" ++ []). apply ra_param; [lia|discriminate|reflexivity|discriminate|constructor].
  - vm_compute. discriminate.
Qed.

(** * C16 *)
Theorem C16_flatten_is_the_leaves_in_order : forall A (l : list (nested A)),
  leaves_of l (flatten l) /\ forall r, leaves_of l r -> r = flatten l.
Proof. intros A l. split; [apply flatten_leaves|]. intros r H. exact (leaves_fun A l r H _ (flatten_leaves A l)). Qed.
Theorem C16_flatten_idempotent : forall A (l : list (nested A)), flatten (map Leaf (flatten l)) = flatten l.
Proof. exact flatten_idem. Qed.
Example C16_case : flatten [Leaf 1; Node [Node []; Leaf 2; Node [Leaf 3]]; Leaf 4] = [1; 2; 3; 4].
Proof. reflexivity. Qed.

(** * C17 *)
(** the numeral is the standard one, digit by digit *)
Theorem C17_roman_numeral : forall n, int_to_roman (N.of_nat n) = Some (roman_numeral n).
Proof. exact roman_std. Qed.
(** and its subtractive reading is the number *)
Theorem C17_roman_denotes_its_number : forall n, exists s,
  int_to_roman n = Some s /\ roman_value s = Some (Z.of_N n).
Proof. exact roman_main. Qed.
Theorem C17_roman_injective : forall n n' s, int_to_roman n = Some s -> int_to_roman n' = Some s -> n = n'.
Proof. exact roman_inj. Qed.
Example C17_case : int_to_roman 1994 = Some (lit "mcmxciv").
Proof. vm_compute. reflexivity. Qed.

(** * C43 *)
(** An escaped backslash before a parameter: \\#1 in TeX is \\ followed by the
    parameter; here the second backslash escapes the hash. *)
Theorem C43_parameter_after_double_backslash_refuted : exists definition args,
  definition = lit "a\\#1" /\ args = [Some (lit "x")] /\
  substitute_args (fun _ => false) definition args false = definition.
Proof. exists (lit "a\\#1"), [Some (lit "x")]. repeat split. Qed.

Print Assumptions C08_environment_block.
Print Assumptions C08_closing_marker_is_unique.
Print Assumptions C08_nested_pattern.
Print Assumptions C12_nonspace_kept_refuted.
Print Assumptions C12_nonspace_kept_partial.
Print Assumptions C13_words_joined.
Print Assumptions C13_spec_is_functional.
Print Assumptions C13_one_trimmed_line.
Print Assumptions C13_no_break_command_left.
Print Assumptions C13_idempotent.
Print Assumptions C14_reading_exists_and_is_unique.
Print Assumptions C14_simultaneous_substitution.
Print Assumptions C15_zero_parameter_refuted.
Print Assumptions C16_flatten_is_the_leaves_in_order.
Print Assumptions C16_flatten_idempotent.
Print Assumptions C17_roman_numeral.
Print Assumptions C17_roman_denotes_its_number.
Print Assumptions C17_roman_injective.
Print Assumptions C43_parameter_after_double_backslash_refuted.
