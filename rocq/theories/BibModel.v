(** Model of latex2json/parser/bib/bibtex_parser.py and of
    compiled_bibtex.is_compiled_bibtex.  [isword] is the class of the regex
    escape \w on str and [lower] is str.lower (both depend on the Unicode
    tables and are arbitrary here); [convert] is
    compiled_bibtex.process_compiled_bibtex_to_bibtex (modelled in CompModel.v). *)
From Coq Require Import List NArith ZArith PeanoNat Lia Bool String.
From Verif Require Import PyStr Regex TexUtilsModel KeyvalModel.
Import ListNotations. Notation length := List.length. Notation concat := List.concat. Open Scope list_scope.

Definition c_at : ch := 64%N.
Definition c_quote : ch := 34%N.

(** compiled_bibtex.py:151-154 *)
Definition compiled_pattern : re := rseq [rstr (lit "\entry{"); rlazy rany; rstr (lit "\endentry")].
Definition is_compiled_bibtex (s : str) : bool := match re_search compiled_pattern s with Some _ => true | None => false end.

(** The regex of bibtex_parser.py:138: blanks, a quote, group 1 without quotes, a quote *)
Definition quote_pattern : re := rseq [rstar rspace; is_ch c_quote; RGrp 1 (rstar (RChr (fun x => negb (N.eqb x c_quote)))); is_ch c_quote].

Record bibtex_entry := { bx_type : str; bx_key : str; bx_fields : list (str * str); bx_content : str }.

(** [s.find(c)] for one character *)
Fixpoint find_char (c : ch) (s : str) : option nat :=
  match s with [] => None | x :: r => if N.eqb x c then Some 0 else option_map S (find_char c r) end.

(** bibtex_parser.py:77-83 *)
Definition convert_fields (ty key : str) (fields : list (str * str)) : str :=
  lit "@" ++ ty ++ lit "{" ++ key ++ lit "," ++ [c_nl; c_tab] ++
  join (lit "," ++ [c_nl; c_tab]) (map (fun kv => fst kv ++ lit "={" ++ snd kv ++ lit "}") fields) ++ [c_nl] ++ lit "}".

(** bibtex_parser.py:146-149: the loop over whitespace and commas *)
Definition sep_char (x : ch) : bool := isspace x || N.eqb x c_comma.
Fixpoint nsep (s : str) : nat := match s with x :: r => if sep_char x then S (nsep r) else 0 | [] => 0 end.

Section Bibtex.
Variable isword : ch -> bool.
Variable lower : str -> str.
(** bibtex_parser.py:46-47 *)
Definition BibTexPattern : re := rseq [is_ch c_at; RGrp 1 (rplus (RChr isword)); rstar rspace; is_ch c_lb].
Definition BibTexFieldPattern : re := rseq [RGrp 1 (rplus (RChr isword)); rstar rspace; is_ch c_eq; rstar rspace].

(** bibtex_parser.py:117-149, one unit of fuel per round; [None] = the loop is
    still running when the fuel is used up. *)
Fixpoint fields_loop (fuel : nat) (text : str) (pos : nat) (fields : list (str * str)) : option (list (str * str)) :=
  match fuel with
  | O => None
  | S fuel =>
      if Nat.ltb pos (length text) then
        match re_search BibTexFieldPattern (skipn pos text) with
        | None => Some fields
        | Some m =>
            let name := lower (match m_group (skipn pos text) 1 m with Some g => g | None => [] end) in
            let start := pos + m_end m in
            let '(fields, pos) :=
              if startswith (lstrip (skipn start text)) [c_lb] then
                let start := start + nlead (skipn start text) in
                match extract_nested_content (skipn start text) c_lb c_rb with
                | (Some value, value_end) => (sset name (strip value) fields, start + value_end)
                | (None, _) => (fields, pos)
                end
              else
                match re_match_at quote_pattern (skipn start text) 0 with
                | Some q => (sset name (match m_group (skipn start text) 1 q with Some g => g | None => [] end) fields, start + m_end q)
                | None => (fields, start + 1)
                end in
            fields_loop fuel text (pos + nsep (skipn pos text)) fields
        end
      else Some fields
  end.

(** bibtex_parser.py:99-156, the body of the loop over the entries *)
Definition parse_entry (fuel : nat) (content : str) (m : mobj) : option (list bibtex_entry) :=
  let ty := lower (match m_group content 1 m with Some g => g | None => [] end) in
  match extract_nested_content (skipn (m_end m - 1) content) c_lb c_rb with
  | (None, _) => Some []
  | (Some entry, _) =>
      match find_char c_comma entry with
      | None => Some []
      | Some k =>
          let key := strip (firstn k entry) in
          match fields_loop fuel (strip (skipn (S k) entry)) 0 [] with
          | None => None
          | Some fs => Some [{| bx_type := ty; bx_key := key; bx_fields := fs; bx_content := convert_fields ty key fs |}]
          end
      end
  end.
Fixpoint parse_matches (fuel : nat) (content : str) (ms : list mobj) : option (list bibtex_entry) :=
  match ms with
  | [] => Some []
  | m :: r =>
      match parse_entry fuel content m with
      | None => None
      | Some e => match parse_matches fuel content r with None => None | Some es => Some (e ++ es) end
      end
  end.
(** bibtex_parser.py:85-158; [fuel] bounds the rounds of each field loop *)
Definition bibtex_parse (convert : str -> list str) (fuel : nat) (content : str) : option (list bibtex_entry) :=
  let content := if is_compiled_bibtex content then join [c_nl] (convert content) else content in
  parse_matches fuel content (re_finditer BibTexPattern content).
End Bibtex.
