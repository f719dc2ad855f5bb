(** Model of latex2json/parser/handlers/tabular.py:13-240 (splitting and parsing
    of table text, table structures). *)
From Coq Require Import List NArith ZArith PeanoNat Lia Bool String.
From Verif Require Import PyStr Regex Json TexUtilsModel BuilderModel FactoryModel.
Import ListNotations.
Notation length := List.length.
Notation concat := List.concat.
Open Scope list_scope.

(** tabular.py:68-76, 87-93: what ends a part; empty rows are not kept *)
Definition flush (is_row_split : bool) (current_part : str) : list str :=
  let p := strip current_part in if is_row_split && nilb p then [] else [p].
(** tabular.py:46-84, the while loop at index [i]; [rest] = content[i:], [skip]
    counts the characters of a delimiter still to be passed (line 80). *)
Fixpoint split_loop (rows : bool) (content d : str) (i skip : nat) (nesting : Z) (cur rest : str) : list str :=
  match rest with
  | [] => flush rows cur
  | x :: r =>
      match skip with
      | S k => split_loop rows content d (S i) k nesting cur r
      | O =>
          if N.eqb x c_lb then split_loop rows content d (S i) 0 (nesting + 1) (cur ++ [x]) r
          else if N.eqb x c_rb then split_loop rows content d (S i) 0 (nesting - 1) (cur ++ [x]) r
          else if startswith rest d && Z.eqb nesting 0 && negb (is_escaped i content)
          then flush rows cur ++ split_loop rows content d (S i) (length d - 1) nesting [] r
          else split_loop rows content d (S i) 0 nesting (cur ++ [x]) r
      end
  end.
(** tabular.py:29-95 *)
Definition split_latex_content (content d : str) (is_row_split : bool) : list str :=
  split_loop is_row_split content d 0 0 0 [] content.

(** tabular.py:98-100 *)
Definition split_rows (t : str) : list str := split_latex_content t [c_bs; c_bs] true.

(** tabular.py:24-26 r"\\(?:makecell|shortstack)(?:\s*\[[^\]]*\])?\s*{" *)
Definition MAKECELL_SHORTSTACK_PATTERN : re :=
  rseq [is_ch c_bs; RAlt (rstr (lit "makecell")) (rstr (lit "shortstack"));
        ropt (rseq [rstar rspace; is_ch c_lk; rstar (RChr (fun x => negb (N.eqb x c_rk))); is_ch c_rk]);
        rstar rspace; is_ch c_lb].
(** tabular.py:20-21 r"\\multicolumn\s*{(\d+)}\s*{" and the same for multirow;
    [\d] is restricted to ASCII digits. *)
Definition span_pattern (name : str) : re :=
  rseq [rstr (c_bs :: name); rstar rspace; is_ch c_lb; RGrp 1 (rplus rdigit); is_ch c_rb; rstar rspace; is_ch c_lb].
Definition MULTICOLUMN_PATTERN : re := span_pattern (lit "multicolumn").
Definition MULTIROW_PATTERN : re := span_pattern (lit "multirow").

(** tabular.py:107-111, one cell; [None] when the group is not closed *)
Definition unwrap_cell (cell : str) : option str :=
  match cell with
  | [] => Some []
  | _ => match re_search MAKECELL_SHORTSTACK_PATTERN cell with
         | Some m => fst (extract_nested_content (skipn (m_end m - 1) cell) c_lb c_rb)
         | None => Some cell
         end
  end.
(** tabular.py:103-113 *)
Definition split_cells (row : str) : list (option str) := map unwrap_cell (split_latex_content row [c_amp] false).

(** tabular.py:145-153 / 156-163: [None] stands for no match *)
Definition last_block (blocks : list str) : str := match rev blocks with b :: _ => strip b | [] => [] end.
Definition span_of (pattern : re) (content : str) : option (nat * str) :=
  match re_search pattern content with
  | None => None
  | Some m =>
      let n := match m_group content 1 m with Some g => match int_of_str g with Some n => n | None => 0 end | None => 0 end in
      let blocks := fst (extract_nested_content_sequence_blocks (skipn (m_end m - 1) content) c_lb c_rb (Some 2)) in
      Some (n, last_block blocks)
  end.
Section Parse.
(** the callback cell_parser_fn (or the identity) *)
Variable parser : str -> val.
(** tabular.py:138-176, one cell; searching in None raises TypeError *)
Definition parse_cell (cell : option str) : res val :=
  match cell with
  | None => Raise TypeError
  | Some content =>
      let '(colspan, content) := match span_of MULTICOLUMN_PATTERN content with Some (n, c) => (n, c) | None => (1, content) end in
      let '(rowspan, content) := match span_of MULTIROW_PATTERN content with Some (n, c) => (n, c) | None => (1, content) end in
      let parsed := parser content in
      Ok (if Nat.ltb 1 rowspan || Nat.ltb 1 colspan
          then VDict [(k_content, parsed); (k_rowspan, VInt (Z.of_nat rowspan)); (k_colspan, VInt (Z.of_nat colspan))]
          else parsed)
  end.
(** tabular.py:131-179: the loop over the rows *)
Fixpoint parse_rows (rows : list str) : res (list (list val)) :=
  match rows with
  | [] => Ok []
  | row :: r =>
      let row := strip row in
      match row with
      | [] => parse_rows r
      | _ =>
          do cells <- mmap parse_cell (split_cells row);
          do rest <- parse_rows r;
          Ok (match cells with [] => rest | _ => cells :: rest end)
      end
  end.
(** tabular.py:182-189 *)
Definition any_cell (row : list val) : bool := existsb truthy row.
Definition trim_rows (rows : list (list val)) : list (list val) :=
  match rows with
  | [] => []
  | first :: r =>
      let rows := if any_cell first then rows else r in
      match rev rows with
      | [] => []
      | last :: before => if any_cell last then rows else rev before
      end
  end.
(** tabular.py:116-191 *)
Definition parse_tabular (t : str) : res (list (list val)) :=
  do rows <- parse_rows (split_rows t); Ok (trim_rows rows).
End Parse.
