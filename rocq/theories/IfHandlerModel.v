(** Model of latex2json/parser/handlers/if_else_statements.py:13-79 (the patterns),
    162-181 (try_handle_ifthenelse) and 184-348 (IfElseBlockHandler), with the
    patterns of parser/patterns.py:5-25 that they use.

    Groups of the patterns are left out: the handler reads group(0) only.
    [\d] is ASCII.  Names given to process_newif are matched literally (the code puts
    them into the pattern unescaped; a name is made of letters).
    extract_and_concat_nested_csname (new_definition.py) is a parameter.
    The dictionaries that are returned are records. *)
From Coq Require Import List NArith PeanoNat Bool String.
From Verif Require Import PyStr Regex Json TexUtilsModel TextModel IfModel.
Import ListNotations. Notation length := List.length. Notation concat := List.concat. Open Scope list_scope.

Definition re_lit (s : string) : re := rstr (lit s).
Definition re_name : re := rplus (RChr is_letter_at).
(** patterns.py:5, 15, 16  command_with_opt_brace_pattern *)
Definition re_cwb : re :=
  RAlt (rseq [is_ch c_lb; rplus (rncls [c_rb]); is_ch c_rb])
       (rseq [is_ch c_bs; ralt [re_name; rplus (rcls (lit "<>=,.;!|$%&#_{}()[]~")); rdigit]]).
(** patterns.py:8, 18-21 *)
Definition re_sign : re := ropt (rcls (lit "-+")).
Definition re_number : re := rseq [re_sign; rstar rdigit; ropt (is_ch 46%N); rplus rdigit].
Definition is_alpha_ascii (c : ch) : bool := in_range 65 90 c || in_range 97 122 c.
Definition re_dim : re :=
  rseq [re_number; rstar rspace; ropt (ralt (map re_lit ["pt"; "mm"; "cm"; "in"; "em"; "ex"; "sp"; "bp"; "dd"; "cc"; "nd"; "nc"]%string));
        RAhead false (RAlt (RChr (fun c => negb (is_alpha_ascii c))) REnd)].
Definition re_command_or_dim : re :=
  ralt [rseq [re_sign; rstar rspace; re_cwb]; re_dim; rseq [re_number; rstar rspace; re_sign; rstar rspace; re_cwb]; re_number].
(** if_else_statements.py:45-57 *)
Definition re_counter_or_num : re :=
  ralt [rseq [re_lit "\value"; rstar rspace; is_ch c_lb; rstar rspace; re_name; rstar rspace; is_ch c_rb];
        rseq [is_ch c_bs; re_name; rplus rdigit]; re_cwb; rplus rdigit].
Definition ifnum_pattern : re := rseq [re_lit "\ifnum"; rstar rspace; re_counter_or_num; rstar rspace; rcls (lit "=<>"); rstar rspace; re_counter_or_num].
Definition ifdim_pattern : re := rseq [re_lit "\ifdim"; rstar rspace; re_command_or_dim; rstar rspace; rcls (lit "=<>"); rstar rspace; re_command_or_dim].
Definition ifcat_pattern : re := rseq [re_lit "\ifcat"; rstar rspace; re_char_or_command; rstar rspace; re_char_or_command].
(** lines 19-36: compiled with re.VERBOSE, *)
Definition tex_token : re :=
  ralt [rseq [ropt (is_ch c_bs); re_name]; rseq [is_ch c_lb; rstar (rncls [c_rb]); is_ch c_rb]; rncls [c_bs; c_lb; c_rb]].
Definition ifx_pattern : re := rseq [re_lit "\ifx"; rstar rspace; tex_token; rstar rspace; tex_token].
(** but lines 218-227 put the text of the pattern into another one without this
    flag: there its blanks, line ends and comments are literal. *)
Definition sp (n : nat) : str := repeat c_sp n.
Definition tex_token_raw : re :=
  rseq [rstr ([c_nl] ++ sp 4);
        ralt [rseq [rstr ([c_nl] ++ sp 8); ropt (is_ch c_bs); re_name; rstr (sp 5);
                    re_lit "# Command or words token"; rstr ([c_nl] ++ sp 8)];
              rseq [rstr ([c_nl] ++ sp 8); is_ch c_lb; rstar (rncls [c_rb]); is_ch c_rb; rstr (sp 8); re_lit "# Group token"; rstr ([c_nl] ++ sp 8)];
              rseq [rstr ([c_nl] ++ sp 8); rncls [c_bs; c_lb; c_rb]; rstr (sp 10); re_lit "# Single character token"; rstr ([c_nl] ++ sp 4)]];
        rstr [c_nl]].
Definition ifx_raw : re := rseq [re_lit "\ifx"; rstar rspace; tex_token_raw; rstar rspace; tex_token_raw].

(** lines 62-79; name, compiled pattern, pattern as it occurs in all_ifs_compiled *)
Record ifdef := { if_name : str; if_re : re; if_raw : re }.
Definition same (n : string) (r : re) : ifdef := {| if_name := lit n; if_re := r; if_raw := r |}.
Definition braced (n : string) : re := rseq [re_lit n; rstar rspace; is_ch c_lb].
Definition default_ifs : list ifdef :=
  [same "ifthenelse" (braced "\ifthenelse");
   {| if_name := lit "ifx"; if_re := ifx_pattern; if_raw := ifx_raw |};
   same "ifdefined" (rseq [re_lit "\if"; ropt (re_lit "un"); re_lit "defined"; rstar rspace; re_cwb]);
   same "ifnum" ifnum_pattern;
   same "ifdim" ifdim_pattern;
   same "ifcat" ifcat_pattern;
   same "ifcase" (rseq [re_lit "\ifcase"; re_default_if 1]);
   same "iffileexists" (braced "\IfFileExists");
   same "@ifclassloaded" (braced "\@ifclassloaded");
   same "@ifpackageloaded" (braced "\@ifpackageloaded");
   same "@ifundefined" (braced "\@ifundefined");
   same "@ifstar" (braced "\@ifstar");
   same "if" IF_PATTERN].
(** lines 205-209 *)
Definition process_newif (name : str) (ifs : list ifdef) : list ifdef :=
  let r := rseq [re_lit "\if"; rstr name; ropt (RAlt (re_lit "true") (re_lit "false"))] in
  {| if_name := name; if_re := r; if_raw := r |} :: ifs.
(** lines 214-223 (the list is never empty) *)
Definition compiled (ifs : list ifdef) : re := ralt (map if_raw ifs).

Record cond_token := { ct_type : str; ct_cond : str; ct_if : str; ct_else : str; ct_elsif : list (option str * str) }.
Definition cres := res (option cond_token * nat).
Definition mk_cond (name cond : str) (a b : str) (l : list (option str * str)) : cond_token :=
  {| ct_type := lit "conditional-" ++ name; ct_cond := cond; ct_if := a; ct_else := b; ct_elsif := l |}.

Section Handler.
Variable csname : str -> str * nat.

(** lines 162-181 *)
Definition handle_ifthenelse (content : str) (m : mobj) : cres :=
  let start := m_end m - 1 in
  let '(blocks, e) := extract_nested_content_sequence_blocks (skipn start content) c_lb c_rb (Some 3) in
  match blocks with
  | [c; a; b] => Ok (Some (mk_cond (lit "ifthenelse") c a b []), start + e)
  | _ => Raise ValueError
  end.
(** lines 228-245 *)
Definition handle_atif (content : str) (m : mobj) (name : str) : cres :=
  let start := m_end m - 1 in
  let '(blocks, e) := extract_nested_content_sequence_blocks (skipn start content) c_lb c_rb (Some 3) in
  match blocks with
  | [] => Ok (None, 0)
  | c :: _ => Ok (Some (mk_cond name c (nth 1 blocks []) (nth 2 blocks []) []), start + e)
  end.
(** lines 247-263 *)
Definition handle_ifstar (content : str) (m : mobj) : cres :=
  let start := m_end m - 1 in
  let '(blocks, e) := extract_nested_content_sequence_blocks (skipn start content) c_lb c_rb (Some 2) in
  match blocks with
  | [] => Ok (None, 0)
  | a :: _ => Ok (Some {| ct_type := lit "conditional-ifstar"; ct_cond := lit "@ifstar"; ct_if := a; ct_else := nth 1 blocks []; ct_elsif := [] |}, start + e)
  end.
(** lines 314-330: where the branches begin and the condition *)
Definition if_head (content : str) (m : mobj) (name : str) : nat * str :=
  let out := m_group0 content m in
  let condition := replace [c_sp] [] out in
  match find_sub (lit "\csname") out with
  | Some k =>
      let '(inner, pos) := csname (skipn (m_start m + k) content) in
      if nilb inner then (m_start m, condition) else (m_start m + k + pos, strip inner)
  | None =>
      (m_end m,
       if str_eqb condition (lit "\if" ++ name) || str_eqb condition (lit "\@if" ++ name) then name
       else
         let condition := replace ([c_bs] ++ name) [] condition in
         if str_eqb name (lit "ifdefined") && contains (lit "\ifundefined") condition then replace (lit "\ifundefined") [] condition else condition)
  end.
(** lines 306-348 *)
Definition handle_general (ifs : list ifdef) (content : str) (m : mobj) (name : str) : cres :=
  let '(start, condition) := if_head content m name in
  match extract_else_elseif_fi (searcher (compiled ifs)) (searcher FI_PATTERN) (searcher ELSE_PATTERN) (searcher_group ELSIF_PATTERN) (skipn start content) with
  | Raise ValueError => Ok (None, 0)
  | Raise e => Raise e
  | Ok (a, b, l, e) =>
      let swap := str_eqb (replace [c_rb] [] (replace [c_lb] [] condition)) (lit "false") in
      Ok (Some (mk_cond name condition (if swap then b else a) (if swap then a else b) l), start + e)
  end.
(** lines 283-348 *)
Fixpoint try_ifs (all l : list ifdef) (content : str) : cres :=
  match l with
  | [] => Ok (None, 0)
  | d :: r =>
      match re_match_at (if_re d) content 0 with
      | None => try_ifs all r content
      | Some m =>
          let n := if_name d in
          if str_eqb n (lit "ifthenelse") then handle_ifthenelse content m
          else if str_eqb n (lit "@ifclassloaded") || str_eqb n (lit "@ifpackageloaded") || str_eqb n (lit "@ifundefined") then handle_atif content m n
          else if str_eqb n (lit "@ifstar") then handle_ifstar content m
          else handle_general all content m n
      end
  end.
Definition handle (ifs : list ifdef) (content : str) : cres := try_ifs ifs ifs content.
End Handler.
(** What replaces a conditional at the start of [content].
    tex_parser.py:566-580 (and, with [pre], tex_preprocessor.py:306-319, which drops
    the conditionals whose type has an @).  [None]: nothing is replaced.  can_handle is
    true when a pattern matches; otherwise handle gives position 0. *)
Definition expand_if (csname : str -> str * nat) (pre : bool) (ifs : list ifdef) (content : str) : res (option str) :=
  match handle csname ifs content with
  | Raise e => Raise e
  | Ok (token, e) =>
      if Nat.eqb e 0 then Ok None
      else
        let block := match token with
                     | None => []
                     | Some t => if pre && contains (lit "@") (ct_type t) then [] else ct_if t
                     end in
        Ok (Some (block ++ skipn e content))
  end.
