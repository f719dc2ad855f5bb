(** Model of latex2json/parser/handlers/content_command.py. *)
From Coq Require Import List NArith ZArith PeanoNat Lia Bool String.
From Verif Require Import PyStr Regex Json TexUtilsModel.
Import ListNotations. Notation length := List.length. Notation concat := List.concat. Open Scope list_scope.

(** One pattern character under re.IGNORECASE: ASCII case folding plus the
    four non-ASCII characters that Python folds to i, s and k. *)
Definition ci (x y : ch) : bool :=
  N.eqb x y || (in_range 97 122 x && N.eqb y (x - 32)) ||
  (N.eqb x 105 && (N.eqb y 304 || N.eqb y 305)) || (N.eqb x 115 && N.eqb y 383) || (N.eqb x 107 && N.eqb y 8490).
Fixpoint rci (s : str) : re := match s with [] => REps | x :: r => RSeq (RChr (ci x)) (rci r) end.
Notation "# s" := (rci (lit s)) (at level 1, s at level 0).
Definition c_star : ch := 42%N.
Definition ostar : re := ropt (is_ch c_star).
Definition sp : re := rstar rspace.
Definition lbrace : re := is_ch c_lb.
(** content_command.py:20 *)
Definition not_ch (x : ch) : re := RChr (fun y => negb (N.eqb y x)).
Definition opt_brace (n : nat) : re := ropt (rseq [is_ch c_lk; RGrp n (rstar (not_ch c_rk)); is_ch c_rk]).
Definition bs : re := is_ch c_bs.

Section Content.
(** \w, used by \b *)
Variable word : ch -> bool.

(** content_command.py:22-76 (RAW_PATTERNS, PATTERNS), in order.  The lazy
    star of captionof is followed by its stop character, so it is the greedy one. *)
Definition citation_names : list string :=
  ["cite"; "citep"; "citet"; "cites"; "citealt"; "citealp"; "citeauthor"; "citenum"; "citeyear"; "citeyearpar"; "citefullauthor"]%string.
Definition P_abstract : re := rseq [bs; #"abstract"; sp; lbrace].
Definition P_section : re := rseq [bs; rstar #"sub"; #"section"; ostar; sp; lbrace].
Definition P_part : re := rseq [bs; #"part"; ostar; sp; lbrace].
Definition P_chapter : re := rseq [bs; #"chapter"; ostar; sp; lbrace].
Definition P_paragraph : re := rseq [bs; rstar #"sub"; #"paragraph"; ostar; sp; lbrace].
Definition P_footnote : re := rseq [bs; #"footnote"; ostar; opt_brace 1; sp; lbrace].
Definition P_caption : re := rseq [bs; RGrp 1 (ralt [#"caption"; #"subcaption"]); ostar; sp; opt_brace 2; sp; lbrace].
Definition P_captionof : re := rseq [bs; #"captionof"; ostar; sp; lbrace; RGrp 1 (rstar (not_ch c_rb)); is_ch c_rb; sp; lbrace].
Definition P_input : re := rseq [bs; ralt [#"input"; #"include"]; sp; lbrace].
Definition P_ref : re := rseq [bs; ropt (ralt [#"auto"; #"eq"; #"page"]); #"ref"; ostar; sp; lbrace].
Definition P_cref : re := rseq [bs; #"c"; #"ref"; ostar; sp; lbrace].
Definition P_hyperref : re := rseq [bs; #"hyperref"; sp; opt_brace 1; sp; lbrace].
Definition P_href : re := rseq [bs; #"href"; sp; lbrace; RGrp 1 (rstar (not_ch c_rb)); is_ch c_rb; sp; lbrace].
Definition P_bookmark : re := rseq [bs; #"bookmark"; sp; opt_brace 1; sp; lbrace].
Definition P_pdfbookmark : re :=
  rseq [bs; ropt (ralt [#"below"; #"current"]); #"pdfbookmark"; sp; opt_brace 1; sp; lbrace; RGrp 2 (rstar (not_ch c_rb)); is_ch c_rb; sp; lbrace].
Definition P_footnotemark : re := rseq [bs; #"footnotemark"; opt_brace 1].
Definition P_footnotetext : re := rseq [bs; #"footnotetext"; opt_brace 1; sp; lbrace].
Definition P_url : re := rseq [bs; ralt [#"url"; #"path"]; sp; lbrace].
Definition P_doi : re := rseq [bs; #"doi"; sp; lbrace].
Definition P_includegraphics : re := rseq [bs; #"includegraphics"; sp; opt_brace 1; sp; lbrace].
Definition P_includepdf : re := rseq [bs; #"includepdf"; sp; opt_brace 1; sp; lbrace].
Definition P_graphicspath : re := rseq [bs; #"graphicspath"; sp; lbrace].
Definition P_citation : re := rseq [bs; ralt (map (fun n => rci (lit n)) citation_names); sp; opt_brace 1; opt_brace 2; sp; lbrace].
Definition P_defcitealias : re := rseq [bs; #"defcitealias"; sp; lbrace; RGrp 1 (rstar (not_ch c_rb)); is_ch c_rb; sp; lbrace].
Definition P_citealias : re := rseq [bs; #"cite"; RChr (fun y => ci 116%N y || ci 112%N y); #"alias"; sp; lbrace].
Definition P_title : re := rseq [bs; #"title"; sp; opt_brace 1; sp; lbrace].
Definition P_appendix : re := rseq [bs; ralt [#"appendix"; #"appendices"]; RBound word].
Definition P_keywords : re := rseq [bs; #"keywords"; sp; lbrace].
Definition P_bibliography : re := rseq [bs; ralt [#"bibliography"; #"addbibresource"]; sp; lbrace].

Inductive kind := Kabstract | Ksection | Kpart | Kchapter | Kparagraph | Kfootnote | Kcaption | Kcaptionof | Kinput | Kref | Kcref | Khyperref | Khref
 | Kbookmark | Kpdfbookmark | Kfootnotemark | Kfootnotetext | Kurl | Kdoi | Kincludegraphics | Kincludepdf | Kgraphicspath | Kcitation | Kdefcitealias
 | Kcitealias | Ktitle | Kappendix | Kkeywords | Kbibliography.
Definition kind_name (k : kind) : str :=
  lit (match k with
  | Kabstract => "abstract" | Ksection => "section" | Kpart => "part" | Kchapter => "chapter" | Kparagraph => "paragraph" | Kfootnote => "footnote"
  | Kcaption => "caption" | Kcaptionof => "captionof" | Kinput => "input_file" | Kref => "ref" | Kcref => "cref" | Khyperref => "hyperref" | Khref => "href"
  | Kbookmark => "bookmark" | Kpdfbookmark => "pdfbookmark" | Kfootnotemark => "footnotemark" | Kfootnotetext => "footnotetext" | Kurl => "url" | Kdoi => "doi"
  | Kincludegraphics => "includegraphics" | Kincludepdf => "includepdf" | Kgraphicspath => "graphicspath" | Kcitation => "citation"
  | Kdefcitealias => "defcitealias" | Kcitealias => "citealias" | Ktitle => "title" | Kappendix => "appendix" | Kkeywords => "keywords"
  | Kbibliography => "bibliography_file" end).
Definition PATTERNS : list (kind * re) :=
  [(Kabstract, P_abstract); (Ksection, P_section); (Kpart, P_part); (Kchapter, P_chapter); (Kparagraph, P_paragraph); (Kfootnote, P_footnote);
   (Kcaption, P_caption); (Kcaptionof, P_captionof); (Kinput, P_input); (Kref, P_ref); (Kcref, P_cref); (Khyperref, P_hyperref); (Khref, P_href);
   (Kbookmark, P_bookmark); (Kpdfbookmark, P_pdfbookmark); (Kfootnotemark, P_footnotemark); (Kfootnotetext, P_footnotetext); (Kurl, P_url); (Kdoi, P_doi);
   (Kincludegraphics, P_includegraphics); (Kincludepdf, P_includepdf); (Kgraphicspath, P_graphicspath); (Kcitation, P_citation);
   (Kdefcitealias, P_defcitealias); (Kcitealias, P_citealias); (Ktitle, P_title); (Kappendix, P_appendix); (Kkeywords, P_keywords); (Kbibliography, P_bibliography)].

(** s.count(p), for non-empty [p] *)
Fixpoint count_go (p : str) (skip : nat) (s : str) : nat :=
  match s with
  | [] => 0
  | _ :: r => match skip with
              | S k => count_go p k r
              | O => if startswith s p then S (count_go p (length p - 1) r) else count_go p 0 r
              end
  end.
Definition str_count (p s : str) : nat := count_go p 0 s.

(** content_command.py:7-18 *)
Definition section_level (k : kind) : Z := match k with Kpart => 0 | _ => 1 end.

Definition tok (ty : string) (fields : dict) : dict := (lit "type", VStr (lit ty)) :: fields.
Definition contentf (v : val) : str * val := (lit "content", v).
Definition titlef (s : str) : str * val := (lit "title", VStr s).
Definition strs (l : list str) : val := VList (map VStr l).
(** match.group(n).strip() if match.group(n) else "" *)
Definition note (text : str) (n : nat) (m : mobj) : str := match m_group text n m with Some s => strip s | None => [] end.
(** [match.group(1).strip()]: AttributeError when the group did not take part *)
Definition group_strip1 (text : str) (m : mobj) : res str := match m_group text 1 m with Some s => Ok (strip s) | None => Raise AttributeError end.
Definition keys (content : str) : list str := map strip (split_char c_comma content).

(** re.search(r"page=(\d+)", options) and int(...) *)
Definition page_pattern : re := RSeq (rstr (lit "page=")) (RGrp 1 (rplus rdigit)).
Definition page_number (options : option str) : option nat :=
  match options with
  | Some o => match re_search page_pattern o with
              | Some m => match m_group o 1 m with Some d => int_of_str d | None => None end
              | None => None
              end
  | None => None
  end.
(** re.search(r"pages=(?:{([0-9-,]+)}|([0-9-,]+))", options) *)
Definition page_chars : re := rplus (rcls (lit "0123456789-,")).
Definition pages_pattern : re :=
  RSeq (rstr (lit "pages=")) (RAlt (rseq [lbrace; RGrp 1 page_chars; is_ch c_rb]) (RGrp 2 page_chars)).
Definition pages_of (options : option str) : option str :=
  match options with
  | Some o => match re_search pages_pattern o with
              | Some m => match m_group o 1 m with Some d => Some d | None => m_group o 2 m end
              | None => None
              end
  | None => None
  end.

(** self.citealias, a dict *)
Definition aliases := list (str * str).
Fixpoint alias_get (k : str) (d : aliases) : option str :=
  match d with [] => None | (k', v) :: r => if str_eqb k k' then Some v else alias_get k r end.
Fixpoint alias_set (k v : str) (d : aliases) : aliases :=
  match d with [] => [(k, v)] | (k', w) :: r => if str_eqb k k' then (k', v) :: r else (k', w) :: alias_set k v r end.
Definition alias_token (d : aliases) (key : str) : dict :=
  tok "citation" (contentf (strs [key]) :: match alias_get key d with Some (x :: t) => [titlef (x :: t)] | _ => [] end).

(** _create_token, content_command.py:139-281; the state is self.citealias *)
Definition create_token (d : aliases) (k : kind) (text : str) (m : mobj) (content0 : str) : res (aliases * val) :=
  let content := strip content0 in
  let g0 := m_group0 text m in
  match k with
  | Kparagraph => Ok (d, VDict (tok "paragraph" [titlef content; (lit "level", VInt (Z.of_nat (str_count (lit "sub") g0) + 1))]))
  | Ksection | Kchapter | Kpart =>
      Ok (d, VDict (tok "section" [titlef content; (lit "level", VInt (Z.of_nat (str_count (lit "sub") g0) + section_level k));
                                   (lit "numbered", VBool (negb (contains (kind_name k ++ [c_star]) g0)))]))
  | Ktitle => Ok (d, VDict (tok "title" [contentf (VStr content)]))
  | Kcaptionof => do t <- group_strip1 text m; Ok (d, VDict (tok "caption" [titlef t; contentf (VStr content)]))
  | Kfootnote | Kfootnotetext => Ok (d, VDict (tok "footnote" [contentf (VStr content)]))
  | Kref => Ok (d, VDict (tok "ref" [contentf (strs [strip content])]))
  | Kcref => Ok (d, VDict (tok "ref" [contentf (strs (keys content))]))
  | Khyperref => do t <- group_strip1 text m; Ok (d, VDict (tok "ref" [titlef content; contentf (strs [t])]))
  | Khref => do t <- group_strip1 text m; Ok (d, VDict (tok "url" [titlef content; contentf (VStr t)]))
  | Kurl => Ok (d, VDict (tok "url" [contentf (VStr content)]))
  | Kdoi => Ok (d, VDict (tok "url" [contentf (VStr (lit "https://doi.org/" ++ content))]))
  | Kcitation =>
      let notes := filter (fun s : str => negb (nilb s)) [note text 1 m; note text 2 m] in
      Ok (d, VDict (tok "citation" (contentf (strs (keys content)) :: match notes with [] => [] | _ => [titlef (join (lit ", ") notes)] end)))
  | Kdefcitealias => do t <- group_strip1 text m; Ok (alias_set t content d, VNone)
  | Kcitealias =>
      match map (alias_token d) (keys content) with
      | [t] => Ok (d, VDict t)
      | ts => Ok (d, VList (map VDict ts))
      end
  | Kincludegraphics =>
      match page_number (m_group text 1 m) with
      | Some n => Ok (d, VDict (tok "includegraphics" [contentf (VStr content); (lit "page", VInt (Z.of_nat n))]))
      | None => Ok (d, VDict (tok "includegraphics" [contentf (VStr content)]))
      end
  | Kincludepdf =>
      match pages_of (m_group text 1 m) with
      | Some (x :: p) => Ok (d, VDict (tok "includepdf" [contentf (VStr content); (lit "pages", VStr (x :: p))]))
      | _ => Ok (d, VDict (tok "includepdf" [contentf (VStr content)]))
      end
  | Kgraphicspath | Kpdfbookmark | Kbookmark => Ok (d, VNone)
  | _ => Ok (d, VDict [(lit "type", VStr (kind_name k)); contentf (VStr content)])
  end.

(** process_content_fn (identity when it is None) *)
Variable expand : str -> str.

(** handle, content_command.py:93-137: the first pattern that matches decides *)
Fixpoint first_pattern (ps : list (kind * re)) (content : str) : option (kind * mobj) :=
  match ps with
  | [] => None
  | (k, p) :: r => match re_match_at p content 0 with Some m => Some (k, m) | None => first_pattern r content end
  end.
Definition content_handle (d : aliases) (content : str) : res (aliases * (val * nat)) :=
  match first_pattern PATTERNS content with
  | None => Ok (d, (VNone, 0))
  | Some (Kfootnotemark, m) =>
      Ok (d, (VDict (tok "footnote" [contentf (VStr (match m_group content 1 m with Some (x :: s) => strip (x :: s) | _ => lit "*" end))]), m_end m))
  | Some (Kappendix, m) => Ok (d, (VDict (tok "appendix" []), m_end m))
  | Some (k, m) =>
      let start := m_end m in
      match extract_nested_content (skipn (start - 1) content) c_lb c_rb with
      | (None, _) => Ok (d, (VNone, start))
      | (Some nested, e) => do dt <- create_token d k content m (expand nested); Ok (fst dt, (snd dt, start + e - 1))
      end
  end.
(** can_handle, content_command.py:90-91 *)
Definition content_can_handle (content : str) : bool := match first_pattern PATTERNS content with Some _ => true | None => false end.
End Content.
