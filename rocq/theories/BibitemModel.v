(** Model of latex2json/parser/bib/bibitem_parser.py (BibItemParser.parse). *)
From Coq Require Import List NArith PeanoNat Bool String.
From Verif Require Import PyStr Regex.
Import ListNotations. Notation length := List.length. Notation concat := List.concat. Open Scope list_scope.

(** bibitem_parser.py:8-11; the flag DOTALL makes the dot match every character *)
Definition BibItemPattern : re :=
  rseq [rstr (lit "\bibitem"); rstar rspace; ropt (rseq [is_ch c_lk; RGrp 1 (rlazy rany); is_ch c_rk]); rstar rspace; is_ch c_lb; RGrp 2 (rlazy rany); is_ch c_rb;
        rstar rspace; RGrp 3 (rlazy rany); RAhead false (RAlt (rstr (lit "\bibitem")) REnd)].
(** What [pattern.sub(template, s)] puts in: backslash sequences of the template are
    interpreted (re._parser.parse_template of the standard library).  [None]: re.error is
    raised.  Simplification: a digit or g after a backslash is always an error (the
    references \g<0> and octal escapes are not modelled). *)
Fixpoint template (s : str) : option str :=
  match s with
  | [] => Some []
  | x :: r =>
      if N.eqb x c_bs then
        match r with
        | [] => None
        | y :: r' =>
            if N.eqb y 97 then option_map (cons 7%N) (template r') else if N.eqb y 98 then option_map (cons 8%N) (template r')
            else if N.eqb y 102 then option_map (cons 12%N) (template r') else if N.eqb y 110 then option_map (cons 10%N) (template r')
            else if N.eqb y 114 then option_map (cons 13%N) (template r') else if N.eqb y 116 then option_map (cons 9%N) (template r')
            else if N.eqb y 118 then option_map (cons 11%N) (template r') else if N.eqb y c_bs then option_map (cons c_bs) (template r')
            else if in_range 65 90 y || in_range 97 122 y || in_range 48 57 y then None
            else option_map (fun t => c_bs :: y :: t) (template r')
        end
      else option_map (cons x) (template r)
  end.
(** BibTexEntry as bibitem_parser.py:48-56 makes it; entry_type and format are always "bibitem", fields is empty *)
Record bibitem := { bi_key : str; bi_content : str; bi_label : option str }.

Section Bibitem.
Variable w : ch -> bool.
(** bibitem_parser.py:12, 33 *)
Definition NewblockPattern : re := RSeq (rstr (lit "\newblock")) (RBound w).
Definition bysame_pattern : re := RSeq (rstr (lit "\bysame")) (RBound w).
(** bibitem_parser.py:26-30: re.search of [\\begin{(\w*bibliography)}(.*?)\\end{\1}].  The
    name is determined by its end, so the reference back is a search for the text *)
Definition begin_bibliography : re := rseq [rstr (lit "\begin{"); RGrp 1 (RSeq (rstar (RChr w)) (rstr (lit "bibliography"))); is_ch c_rb].
Fixpoint environment (k : nat) (content : str) (i : nat) : option str :=
  match k with
  | O => None
  | S k' =>
      match re_match_at begin_bibliography content i with
      | Some m =>
          let name := match m_group content 1 m with Some n => n | None => [] end in
          match find_sub (lit "\end{" ++ name ++ [c_rb]) (skipn (m_end m) content) with
          | Some p => Some (firstn p (skipn (m_end m) content))
          | None => environment k' content (S i)
          end
      | None => environment k' content (S i)
      end
  end.
(** bibitem_parser.py:37-46 *)
Definition item_content (previous : option str) (item : str) : option str :=
  let item := re_sub NewblockPattern (fun _ => []) item in
  match previous with
  | Some (x :: p) =>
      match re_search bysame_pattern item with
      | Some _ =>
          match hd [] (split_char c_comma (x :: p)) with
          | [] => Some item
          | author_part => match template author_part with Some t => Some (re_sub bysame_pattern (fun _ => t) item) | None => None end
          end
      | None => Some item
      end
  | _ => Some item
  end.
(** bibitem_parser.py:35-58 *)
Fixpoint entries (content : str) (previous : option str) (ms : list mobj) : option (list bibitem) :=
  match ms with
  | [] => Some []
  | m :: r =>
      let group n := match m_group content n m with Some g => g | None => [] end in
      match strip (group 3) with
      | [] => entries content previous r
      | item =>
          match item_content previous item with
          | None => None
          | Some c =>
              option_map (cons {| bi_key := strip (group 2); bi_content := c; bi_label := match group 1 with [] => None | l => Some (strip l) end |}) (entries content (Some c) r)
          end
      end
  end.
(** bibitem_parser.py:24-59; [None]: re.error is raised *)
Definition parse_bibitems (content : str) : option (list bibitem) :=
  let content := match environment (S (length content)) content 0 with Some inner => inner | None => content end in
  entries content None (re_finditer BibItemPattern content).
(** bibitem_parser.py:17-22 *)
Definition can_handle_bibitems (content : str) : bool :=
  match environment (S (length content)) content 0 with Some _ => true | None => contains (lit "\bibitem") content end.
End Bibitem.
