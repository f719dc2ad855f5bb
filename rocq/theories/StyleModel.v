(** Model of latex2json/parser/handlers/text_formatting.py (TextFormattingHandler) and
    of flatten_group_token (utils/tex_utils.py:376-384). *)
From Coq Require Import List NArith ZArith PeanoNat Bool String.
From Verif Require Import PyStr Regex Json TexUtilsModel TextModel BuilderModel ContentModel CommandModel BoxModel.
Import ListNotations. Notation length := List.length. Notation concat := List.concat. Open Scope list_scope.

Definition k_styles := lit "styles".
(** text_formatting.py:19-48 *)
Definition FRONTEND_STYLE_MAPPING : list (str * option str) :=
  [(lit "textbf", Some (lit "bold")); (lit "textit", Some (lit "italic")); (lit "textsl", Some (lit "italic"));
   (lit "textsc", Some (lit "small-caps")); (lit "textsf", Some (lit "sans-serif")); (lit "texttt", Some (lit "monospace"));
   (lit "textrm", Some (lit "normal")); (lit "textup", Some (lit "normal")); (lit "emph", Some (lit "italic"));
   (lit "texttiny", Some (lit "xx-small")); (lit "textscriptsize", Some (lit "x-small")); (lit "textfootnotesize", Some (lit "small"));
   (lit "textsmall", Some (lit "small")); (lit "textnormal", Some (lit "medium")); (lit "textlarge", Some (lit "large"));
   (lit "texthuge", Some (lit "xx-large")); (lit "text", None); (lit "textsuperscript", Some (lit "superscript"));
   (lit "textsubscript", Some (lit "subscript")); (lit "underline", Some (lit "underline")); (lit "overline", Some (lit "overline"));
   (lit "textoverline", Some (lit "overline")); (lit "textstrikeout", Some (lit "line-through")); (lit "sout", Some (lit "line-through"));
   (lit "natexlab", None); (lit "uppercase", Some (lit "uppercase")); (lit "lowercase", Some (lit "lowercase"))].
Definition is_letter (x : ch) : bool := ((65 <=? x) && (x <=? 90) || (97 <=? x) && (x <=? 122))%N.
(** text_formatting.py:50-53 *)
Definition TEXT_PATTERN : re :=
  RSeq (is_ch c_bs) (RSeq (RGrp 1 (ralt (map (fun kv => rstr (fst kv)) FRONTEND_STYLE_MAPPING)))
    (RSeq (RAhead true (RChr is_letter)) (RSeq (ropt (nm "\expandafter"))
      (ropt (RGrp 2 (RAlt (RSeq (rstar rspace) (RGrp 3 (is_ch c_lb))) (rstar rany))))))).
(** patterns.py:5 without its group, which the handler does not read *)
Definition BRACE_CONTENT : re := rseq [is_ch c_lb; rplus (not_ch c_rb); is_ch c_rb].
Definition sp_brace : re := RSeq (rstar rspace) BRACE_CONTENT.
Section Patterns.
(** \w, used by \b and in the colour model *)
Variable w : ch -> bool.
(** text_formatting.py:55-59, 64 *)
Definition FONTS_PATTERN : re :=
  ralt [rseq [nm "\fontsize"; sp_brace; sp_brace]; RSeq (nm "\selectfont") (RBound w);
        rseq [nm "\usefont"; sp_brace; sp_brace; sp_brace; sp_brace]].
(** text_formatting.py:63, 65-70 *)
Definition CITETEXT_PATTERN : re := rseq [nm "\citetext"; rstar rspace; is_ch c_lb].
Definition FRAC_PATTERN : re := rseq [is_ch c_bs; ralt [nm "frac"; nm "nicefrac"; nm "textfrac"]; rstar rspace; is_ch c_lb].
Definition TEXORPDF_PATTERN : re := rseq [nm "\texorpdfstring"; rstar rspace; is_ch c_lb].
Definition TEXTCOLOR_PATTERN : re :=
  rseq [nm "\textcolor"; rstar rspace; ropt (RGrp 1 (rseq [is_ch c_lk; rplus (RChr w); is_ch c_rk])); rstar rspace; is_ch c_lb].
Definition COLUMNS_PATTERN : re :=
  RSeq (is_ch c_bs) (RAlt (RSeq (nm "onecolumn") (RBound w)) (rseq [nm "twocolumn"; rstar rspace; ropt (is_ch c_lk)])).
Definition SUBFLOAT_PATTERN : re := rseq [nm "\subfloat"; rstar rspace; is_ch c_lk].
Definition ROMAN_PATTERN : re := rseq [nm "\romannumeral"; rplus rspace; RGrp 1 (rplus rdigit)].

(** [list(OrderedDict.fromkeys(l))] *)
Fixpoint dedupe (l : list val) : list val :=
  match l with [] => [] | x :: r => x :: filter (fun y => negb (val_eqb y x)) (dedupe r) end.
(** [d.get("styles", [])], always a list in tokens of this code base *)
Definition styles_of (d : dict) : res (list val) :=
  match lookup k_styles d with None => Ok [] | Some (VList l) => Ok l | Some _ => Raise TypeError end.
(** tex_utils.py:376-384 for a group whose content is [toks] *)
Fixpoint with_styles (st : list val) (toks : list val) : res (list val) :=
  match toks with
  | [] => Ok []
  | VDict d :: r => do old <- styles_of d; do r' <- with_styles st r; Ok (VDict (set k_styles (VList (st ++ old)) d) :: r')
  | _ :: _ => Raise AttributeError
  end.
(** text_formatting.py:80-93 for a list, the result of process_content_fn *)
Definition normalize_text_token (l : list val) : dict :=
  match l with
  | [VDict d] => if is_str (get k_type d) "text" then d else [(k_type, VStr (lit "group")); (k_content, VList l)]
  | _ => [(k_type, VStr (lit "group")); (k_content, VList l)]
  end.

(** process_content_fn: TexParser.parse, which returns a list of tokens or raises.  Its
    effects on the parser state are not modelled (the handler has none). *)
Variable process : str -> res (list val).

(** text_formatting.py:108-172.  The result [VNone] is Python's None. *)
Definition handle_styled (content : str) (m : mobj) : res (val * nat) :=
  let command := grp content 1 m in
  let style := match find (fun kv => str_eqb (fst kv) command) FRONTEND_STYLE_MAPPING with Some (_, Some s) => [VStr s] | _ => [] end in
  let finish (text : str) (total_pos : nat) : res (val * nat) :=
    do inner <- process text;
    match inner with
    | [VDict d] => do old <- styles_of d; Ok (VDict (set k_styles (VList (dedupe (style ++ old))) d), total_pos)
    | [] => Ok (VNone, total_pos)
    | _ => match style with
           | [] => Ok (VList inner, total_pos)
           | _ => do l <- with_styles style inner; Ok (VList l, total_pos)
           end
    end in
  match m_span 2 m with
  | Some (start2, next_pos) =>
      let next_content := slice start2 next_pos content in
      match next_content with
      | [] => finish [] (m_end m)
      | _ =>
        if N.eqb (last next_content 0%N) c_lb then
          match extract_nested_content (c_lb :: skipn next_pos content) c_lb c_rb with
          | (None, _) => finish [c_lb] next_pos
          | (Some text, end_pos) => if nilb (strip text) then Ok (VNone, next_pos + end_pos - 1) else finish text (next_pos + end_pos - 1)
          end
        else
          let index := nlead next_content in
          match nth_error next_content index with
          | None => Raise IndexError
          | Some x => if N.eqb x c_bs then finish [] start2 else finish [x] (start2 + index + 1)
          end
      end
  | None => finish [] (m_end m)
  end.

(** text_formatting.py:174-184 *)
Definition handle_citetext (content : str) (m : mobj) : res (val * nat) :=
  let start_pos := m_end m - 1 in
  match extract_nested_content_sequence_blocks (skipn start_pos content) c_lb c_rb (Some 1) with
  | ([b], e) => do l <- process b; Ok (VList l, start_pos + e)
  | _ => Ok (VNone, start_pos)
  end.
(** text_formatting.py:186-209 *)
Definition handle_frac (content : str) (m : mobj) : res (val * nat) :=
  let start_pos := m_end m - 1 in
  match extract_nested_content_sequence_blocks (skipn start_pos content) c_lb c_rb (Some 2) with
  | ([a; b], e) =>
      do la <- process a; do first <- flatten_all_to_string (VList la);
      do lb <- process b; do second <- flatten_all_to_string (VList lb);
      Ok (text_token (strip_latex_newlines first ++ lit " / " ++ strip_latex_newlines second), start_pos + e)
  | _ => Ok (VNone, start_pos)
  end.
(** text_formatting.py:211-224 *)
Definition handle_texorpdfstring (content : str) (m : mobj) : res (val * nat) :=
  let start_pos := m_end m - 1 in
  match extract_nested_content_sequence_blocks (skipn start_pos content) c_lb c_rb (Some 2) with
  | ([_; b], e) => do l <- process b; Ok (VDict (normalize_text_token l), start_pos + e)
  | _ => Ok (VNone, start_pos)
  end.
(** text_formatting.py:226-247; group 1 is a bracket, word characters and a bracket,
    so that the two strips take off the brackets *)
Definition handle_color (content : str) (m : mobj) : res (val * nat) :=
  let start_pos := m_end m - 1 in
  let '(blocks, e) := extract_nested_content_sequence_blocks (skipn start_pos content) c_lb c_rb (Some 2) in
  match blocks with
  | [b0; b1] =>
      let color := lit "color=" ++ match m_group content 1 m with
                                   | Some g => lit "{" ++ removelast (skipn 1 g) ++ lit ":" ++ strip b0 ++ lit "}"
                                   | None => strip b0
                                   end in
      do l <- process b1;
      let d := normalize_text_token l in
      do old <- styles_of d;
      Ok (VDict (set k_styles (VList (dedupe (VStr color :: old))) d), start_pos + e)
  | _ => do l <- process []; Ok (VDict (normalize_text_token l), start_pos + e)
  end.
(** text_formatting.py:249-264 *)
Definition handle_columns (content : str) (m : mobj) : res (val * nat) :=
  if N.eqb (last (m_group0 content m) 0%N) c_lk then
    let start_pos := m_end m - 1 in
    match extract_nested_content (skipn start_pos content) c_lk c_rk with
    | (Some b, e) => do l <- process b; Ok (VDict (normalize_text_token l), start_pos + e)
    | (None, _) => Ok (VNone, start_pos)
    end
  else Ok (VNone, m_end m).
(** text_formatting.py:266-293 *)
Definition handle_subfloat (content : str) (m : mobj) : res (val * nat) :=
  let start_pos := m_end m - 1 in
  match extract_nested_content (skipn start_pos content) c_lk c_rk with
  | (None, _) => Raise AttributeError
  | (Some caption, e) =>
      let total_pos := start_pos + e in
      let '(block, e2) := extract_nested_content (skipn total_pos content) c_lb c_rb in
      do lc <- process (strip caption);
      let cap := VDict [(k_type, VStr (lit "caption")); (k_content, VList [VDict (normalize_text_token lc)])] in
      match block with
      | Some (x :: r) =>
          do lb <- process (x :: r);
          Ok (VDict [(k_type, VStr (lit "group")); (k_content, VList [cap; VDict (normalize_text_token lb)])], total_pos + e2)
      | _ => Ok (VDict [(k_type, VStr (lit "group")); (k_content, VList [cap])], total_pos)
      end
  end.
(** text_formatting.py:295-299 *)
Definition handle_roman_numerals (content : str) (m : mobj) : res (val * nat) :=
  match int_of_str (grp content 1 m) with
  | Some n => match int_to_roman (N.of_nat n) with Some s => Ok (text_token s, m_end m) | None => Raise NoFuel end
  | None => Raise ValueError
  end.

(** text_formatting.py:61-71, 301-326: the patterns in their order *)
Definition PATTERNS : list (re * (str -> mobj -> res (val * nat))) :=
  [(TEXT_PATTERN, handle_styled); (CITETEXT_PATTERN, handle_citetext); (FONTS_PATTERN, fun _ m => Ok (VNone, m_end m));
   (FRAC_PATTERN, handle_frac); (TEXORPDF_PATTERN, handle_texorpdfstring); (TEXTCOLOR_PATTERN, handle_color);
   (COLUMNS_PATTERN, handle_columns); (SUBFLOAT_PATTERN, handle_subfloat); (ROMAN_PATTERN, handle_roman_numerals)].
Fixpoint try_patterns (l : list (re * (str -> mobj -> res (val * nat)))) (content : str) : res (val * nat) :=
  match l with
  | [] => Ok (VNone, 0)
  | (p, h) :: r => match re_match_at p content 0 with Some m => h content m | None => try_patterns r content end
  end.
Definition handle (content : str) : res (val * nat) := try_patterns PATTERNS content.
(** text_formatting.py:97-98 *)
Definition can_handle (content : str) : bool :=
  existsb (fun ph => match re_match_at (fst ph) content 0 with Some _ => true | None => false end) PATTERNS.
End Patterns.
