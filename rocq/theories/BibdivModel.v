(** Model of latex2json/parser/bib/bibdiv_parser.py.  [isword] is \w, [lower] is str.lower. *)
From Coq Require Import List NArith PeanoNat Bool String.
From Verif Require Import PyStr Regex TexUtilsModel KeyvalModel BibModel.
Import ListNotations. Notation length := List.length. Notation concat := List.concat. Open Scope list_scope.

(** [d.get(k)] *)
Fixpoint sget (k : str) (d : list (str * str)) : option str :=
  match d with [] => None | (k', v) :: r => if str_eqb k k' then Some v else sget k r end.
(** bibdiv_parser.py:11-12 *)
Definition BibDivPattern : re := rseq [rstr (lit "\begin"); rstar rspace; rstr (lit "{bibdiv}")].
Definition BibPattern : re :=
  rseq [rstr (lit "\bib"); rstar rspace; is_ch c_lb; RGrp 1 (rplus (RChr (fun x => negb (N.eqb x c_rb)))); is_ch c_rb; rstar rspace; is_ch c_lb; RGrp 2 (rplus (RChr (fun x => negb (N.eqb x c_rb)))); is_ch c_rb].
(** bibdiv_parser.py:30-40 *)
Definition is_bibdiv (content : str) : bool := match re_search BibDivPattern content with Some _ => true | None => false end.
(** bibdiv_parser.py:98, 114: re.sub of a brace, group 1 without closing braces, a brace by group 1 *)
Definition brace_pattern : re := rseq [is_ch c_lb; RGrp 1 (rstar (RChr (fun x => negb (N.eqb x c_rb)))); is_ch c_rb].
Definition strip_braces (value : str) : str := re_sub brace_pattern (fun m => match m_group value 1 m with Some g => g | None => [] end) value.
(** bibdiv_parser.py:101-104, 116-119 *)
Definition add_field (fields : list (str * str)) (name value : str) : list (str * str) :=
  match sget name fields with Some old => sset name (old ++ lit " and " ++ value) fields | None => sset name value fields end.

Section Bibdiv.
Variable isword : ch -> bool.
Variable lower : str -> str.
(** bibdiv_parser.py:76 *)
Definition field_pattern : re := rseq [rstar rspace; RGrp 1 (rplus (RChr isword)); rstar rspace; is_ch c_eq; rstar rspace].
(** bibdiv_parser.py:74-124, one unit of fuel per round; [None]: still running *)
Fixpoint fields_loop (fuel : nat) (text : str) (pos : nat) (fields : list (str * str)) : option (list (str * str)) :=
  match fuel with
  | O => None
  | S fuel =>
      if Nat.ltb pos (length text) then
        match re_match_at field_pattern (skipn pos text) 0 with
        | None => fields_loop fuel text (pos + 1) fields
        | Some m =>
            let name := lower (match m_group (skipn pos text) 1 m with Some g => g | None => [] end) in
            let start := pos + m_end m in
            let '(fields, pos) :=
              if startswith (lstrip (skipn start text)) [c_lb] then
                let start := start + nlead (skipn start text) in
                match extract_nested_content (skipn start text) c_lb c_rb with
                | (Some value, value_end) => (add_field fields name (strip (strip_braces value)), start + value_end)
                | (None, _) => (fields, pos)
                end
              else
                let comma := match find_char c_comma (skipn start text) with Some k => start + k | None => length text end in
                (add_field fields name (strip_braces (strip (slice start comma text))), comma + 1) in
            fields_loop fuel text (pos + nlead (skipn pos text)) fields
        end
      else Some fields
  end.
(** bibdiv_parser.py:61-129, the body of the loop over the entries; BibTexEntry.from_bibtex
    is bibtex_parser.py:28-43 *)
Definition bib_entry (fuel : nat) (content : str) (m : mobj) : option (list bibtex_entry) :=
  let group n := match m_group content n m with Some g => g | None => [] end in
  match extract_nested_content (skipn (m_end m) content) c_lb c_rb with
  | (Some (x :: r), _) =>
      match fields_loop fuel (x :: r) 0 [] with
      | None => None
      | Some fs => Some [{| bx_type := group 2; bx_key := group 1; bx_fields := fs; bx_content := convert_fields (group 2) (group 1) fs |}]
      end
  | _ => Some []
  end.
Fixpoint bib_entries (fuel : nat) (content : str) (ms : list mobj) : option (list bibtex_entry) :=
  match ms with
  | [] => Some []
  | m :: r =>
      match bib_entry fuel content m with
      | None => None
      | Some e => match bib_entries fuel content r with None => None | Some es => Some (e ++ es) end
      end
  end.
(** bibdiv_parser.py:42-131; [fuel] bounds the rounds of each field loop *)
Definition bibdiv_parse (fuel : nat) (content : str) : option (list bibtex_entry) := bib_entries fuel content (re_finditer BibPattern content).
End Bibdiv.
