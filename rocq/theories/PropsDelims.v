(** Properties C01-C07 and C09-C11: delimiters, arguments, comments
    (latex2json/utils/tex_utils.py).  Specification vocabulary: DelimSpec.v. *)
From Coq Require Import List NArith PeanoNat Bool String Lia.
From Verif Require Import PyStr TexUtilsModel DelimSpec DelimProofs DelimProofs2 CommentProofs DelimFinal.
Import ListNotations.
Notation length := List.length.
Open Scope list_scope.

(** * C01 *)
(** A successful extraction is blanks, the opening delimiter, the balanced
    content and an unescaped closing delimiter, and the position is the one
    right after it. *)
Theorem C01_extraction_is_one_balanced_group : forall o c text content n, delims_ok o c ->
  extract_nested_content text o c = (Some content, n) ->
  exists ws rest,
    text = ws ++ [o] ++ content ++ [c] ++ rest /\
    blank ws /\ balanced o c (marks content) /\ closes_after content /\
    firstn n text = ws ++ [o] ++ content ++ [c] /\ skipn n text = rest.
Proof. exact c01_group. Qed.
(** No other reading of the text as a group exists; in particular no shorter
    prefix closes it. *)
Theorem C01_group_is_unique : forall o c text content n content' n', delims_ok o c ->
  extract_nested_content text o c = (Some content, n) ->
  group_at o c text content' n' -> content' = content /\ n' = n.
Proof. exact c01_unique. Qed.
Example C01_case : extract_nested_content (lit "  {a\}{b}\\} c") c_lb c_rb = (Some (lit "a\}{b}\\"), 12)
  /\ delims_ok c_lb c_rb.
Proof. split; [reflexivity|exact delims_curly]. Qed.

(** * C02 *)
Theorem C02_failure_iff_no_group : forall o c text, delims_ok o c ->
  extract_nested_content text o c = (None, 0) <-> (forall content n, ~ group_at o c text content n).
Proof. exact c02_fail. Qed.
(** and there is no third outcome *)
Theorem C02_only_two_outcomes : forall o c text, delims_ok o c ->
  extract_nested_content text o c = (None, 0) \/
  exists content n, extract_nested_content text o c = (Some content, n) /\ 2 <= n <= length text.
Proof. exact c02_outcomes. Qed.
(** The no-group condition in elementary terms. *)
Theorem C02_no_group_meaning : forall o c text, delims_ok o c ->
  ((forall content n, ~ group_at o c text content n) <->
   forall ws rest, blank ws -> text = ws ++ [o] ++ rest ->
     forall content tail, rest = content ++ [c] ++ tail ->
       ~ (balanced o c (marks content) /\ closes_after content)).
Proof. exact c02_meaning. Qed.
Example C02_case_unclosed : extract_nested_content (lit "{a{b}\}") c_lb c_rb = (None, 0).
Proof. reflexivity. Qed.
Example C02_case_other : extract_nested_content (lit " x{a}") c_lb c_rb = (None, 0).
Proof. reflexivity. Qed.

(** * C03 *)
Theorem C03_block_sequences_exact_and_greedy : forall o c text k, delims_ok o c ->
  exists bs p,
    extract_nested_content_sequence_blocks text o c k = (bs, p) /\
    groups_at o c text bs p /\
    match k with
    | Some m => length bs <= m /\ (length bs < m -> forall ct n, ~ group_at o c (skipn p text) ct n)
    | None => forall ct n, ~ group_at o c (skipn p text) ct n
    end.
Proof. exact c03_blocks. Qed.
(** the run of groups re-renders to the consumed prefix *)
Theorem C03_consumed_prefix_rendering : forall o c text bs p, groups_at o c text bs p ->
  exists wss, length wss = length bs /\ Forall blank wss /\
    firstn p text = List.concat (map (fun '(ws, b) => ws ++ [o] ++ b ++ [c]) (combine wss bs)) /\
    p <= length text /\ (bs = [] -> p = 0).
Proof. exact c03_render. Qed.
Example C03_case : extract_nested_content_sequence_blocks (lit " {a} {b{c}}  {d") c_lb c_rb (Some 3)
  = ([lit "a"; lit "b{c}"], 11).
Proof. reflexivity. Qed.

(** * C04: refuted; the returned position is not relative to the content *)
Theorem C04_end_position_refuted : exists content req opt rs os e b1 n1 b2 n2,
  extract_args content req opt = (rs, os, e) /\
  os = [b1] /\ rs = [b2] /\ group_at c_lk c_rk content b1 n1 /\
  group_at c_lb c_rb (skipn n1 content) b2 n2 /\ e <> n1 + n2.
Proof. exact c04_refuted. Qed.
(** What does hold: the arguments are always the right ones, and the position
    is the right one when no optional argument was read or no required
    argument was asked for. *)
Theorem C04_arguments_partial : forall content req opt, exists os p1 rs p2,
  groups_at c_lk c_rk content os p1 /\ groups_at c_lb c_rb (skipn p1 content) rs p2 /\
  length os <= opt /\ length rs <= req /\
  (length os < opt -> forall ct n, ~ group_at c_lk c_rk (skipn p1 content) ct n) /\
  (length rs < req -> forall ct n, ~ group_at c_lb c_rb (skipn (p1 + p2) content) ct n) /\
  exists e, extract_args content req opt = (rs, os, e) /\
    (os = [] \/ req = 0 -> e = p1 + p2).
Proof. exact c04_partial. Qed.
Example C04_case : extract_args (lit " {a}{b}{c}") 2 1 = ([lit "a"; lit "b"], [], 7).
Proof. reflexivity. Qed.

(** * C05 *)
(** The results are what [args_at] reads for a prefix of the spec; reading
    stopped because the spec is exhausted, because no group of either kind
    follows, or because a required group is missing; the reported position is
    the position after the last consumed group (plus blanks in the third
    case). *)
Theorem C05_delimited_args : forall content spec,
  (forall d, In d spec -> d = c_lb \/ d = c_lk) ->
  exists spec1 spec2 rs p e,
    extract_delimited_args content spec = (rs, e) /\
    spec = spec1 ++ spec2 /\ args_at content spec1 rs p /\
    (spec2 = [] \/
     ((forall b n, ~ group_at c_lb c_rb (skipn p content) b n) /\
      (forall b n, ~ group_at c_lk c_rk (skipn p content) b n)) \/
     ((exists s, spec2 = c_lb :: s) /\ forall b n, ~ group_at c_lb c_rb (skipn p content) b n)) /\
    length rs <= length spec /\ e <= length content /\
    (e = p \/ exists ws, blank ws /\ firstn e content = firstn p content ++ ws).
Proof. exact c05_args. Qed.
Theorem C05_consumed_prefix_rendering : forall text spec rs p, args_at text spec rs p ->
  length rs = length spec /\
  exists parts, length parts = length rs /\ firstn p text = List.concat parts /\
    Forall2 (fun '(d, r) part =>
       match r with
       | None => d = c_lk /\ part = []
       | Some b => exists ws, blank ws /\
           part = ws ++ [d] ++ b ++ [if N.eqb d c_lb then c_rb else c_rk]
       end) (combine spec rs) parts.
Proof. exact c05_render. Qed.
Example C05_case : extract_delimited_args (lit "{a} {b}[x]rest") (lit "{[{[")
  = ([Some (lit "a"); None; Some (lit "b"); Some (lit "x")], 10).
Proof. reflexivity. Qed.

(** * C06 *)
Theorem C06_balance_decided : forall o c text, delims_ok o c ->
  check_delimiter_balance text o c = true <-> balanced o c (marks text).
Proof. exact c06_balance. Qed.
Example C06_case_yes : check_delimiter_balance (lit "a{b\}{}}") c_lb c_rb = true.
Proof. reflexivity. Qed.
Example C06_case_no : check_delimiter_balance (lit "}{") c_lb c_rb = false.
Proof. reflexivity. Qed.

(** * C07 *)
Theorem C07_equation_content : forall d text, d = [c_dollar] \/ d = [c_dollar; c_dollar] ->
  (exists i, startswith text d = true /\ delim_at text d (length d) i /\
     (forall j, j < i -> ~ delim_at text d (length d) j) /\
     extract_equation_content text d = (strip (slice (length d) i text), i + length d))
  \/ ((startswith text d = false \/ forall i, ~ delim_at text d (length d) i) /\
      extract_equation_content text d = ([], 0)).
Proof. exact c07_equation. Qed.
Example C07_case : extract_equation_content (lit "$ a\$b{$}c $ d") [c_dollar] = (lit "a\$b{$}c", 12).
Proof. reflexivity. Qed.

(** * C09 *)
Theorem C09_comments_removed_per_line : forall text, exists lines outs,
  lines_of text lines /\
  Forall2 (fun line out => exists cut ws, uncommented line cut /\ cut = out ++ ws /\ blank ws /\
             (forall x y, out = y ++ [x] -> isspace x = false)) lines outs /\
  strip_latex_comments text = join [c_nl] outs.
Proof. exact c09_lines. Qed.
(** the specification determines lines and cuts *)
Theorem C09_spec_is_functional : forall text l1 l2 line c1 c2,
  (lines_of text l1 -> lines_of text l2 -> l1 = l2) /\
  (uncommented line c1 -> uncommented line c2 -> c1 = c2).
Proof. exact c09_fun. Qed.
Example C09_case : strip_latex_comments (lit "a \% b % c" ++ [c_cr; c_nl] ++ lit "d\\%e")
  = lit "a \% b" ++ [c_nl] ++ lit "d\\".
Proof. reflexivity. Qed.

(** * C10 *)
Theorem C10_no_comment_left : forall text, ~ has_unescaped_pct (strip_latex_comments text).
Proof. exact strip_no_comment. Qed.
Theorem C10_idempotent_refuted : exists text,
  strip_latex_comments (strip_latex_comments text) <> strip_latex_comments text.
Proof. exact c10_refuted. Qed.
(** A second pass drops at most one final newline... *)
Theorem C10_idempotent_partial : forall text, let s := strip_latex_comments text in
  strip_latex_comments s = s \/ s = strip_latex_comments s ++ [c_nl].
Proof. exact strip_idem_cases. Qed.
(** ... so it is idempotent whenever the result does not end in a newline. *)
Theorem C10_idempotent_without_final_newline : forall text,
  (forall p, strip_latex_comments text <> p ++ [c_nl]) ->
  strip_latex_comments (strip_latex_comments text) = strip_latex_comments text.
Proof. exact c10_idem. Qed.
Example C10_case : strip_latex_comments (strip_latex_comments (lit "a%b")) = lit "a".
Proof. reflexivity. Qed.

(** * C11 *)
Theorem C11_detectors_agree_refuted : exists content pos cur,
  pos <= length content /\ last_line (firstn pos content) cur /\ has_unescaped_pct cur /\
  has_comment_on_sameline content pos = false.
Proof. exact c11_refuted. Qed.
Theorem C11_reported_comments_are_comments_partial : forall content pos, pos <= length content ->
  has_comment_on_sameline content pos = true ->
  exists cur, last_line (firstn pos content) cur /\ has_unescaped_pct cur.
Proof. exact has_comment_sound. Qed.
Theorem C11_comments_are_reported_without_double_backslash_partial : forall content pos cur,
  pos <= length content -> last_line (firstn pos content) cur ->
  (forall p q, cur <> p ++ [c_bs; c_bs] ++ q) -> has_unescaped_pct cur ->
  has_comment_on_sameline content pos = true.
Proof. exact has_comment_complete. Qed.
Example C11_case : has_comment_on_sameline (lit "a \% % b") 8 = true /\ has_comment_on_sameline (lit "a \% b") 6 = false.
Proof. split; reflexivity. Qed.

Print Assumptions C01_extraction_is_one_balanced_group.
Print Assumptions C01_group_is_unique.
Print Assumptions C02_failure_iff_no_group.
Print Assumptions C02_only_two_outcomes.
Print Assumptions C02_no_group_meaning.
Print Assumptions C03_block_sequences_exact_and_greedy.
Print Assumptions C03_consumed_prefix_rendering.
Print Assumptions C04_end_position_refuted.
Print Assumptions C04_arguments_partial.
Print Assumptions C05_delimited_args.
Print Assumptions C05_consumed_prefix_rendering.
Print Assumptions C06_balance_decided.
Print Assumptions C07_equation_content.
Print Assumptions C09_comments_removed_per_line.
Print Assumptions C09_spec_is_functional.
Print Assumptions C10_no_comment_left.
Print Assumptions C10_idempotent_refuted.
Print Assumptions C10_idempotent_partial.
Print Assumptions C10_idempotent_without_final_newline.
Print Assumptions C11_detectors_agree_refuted.
Print Assumptions C11_reported_comments_are_comments_partial.
Print Assumptions C11_comments_are_reported_without_double_backslash_partial.
