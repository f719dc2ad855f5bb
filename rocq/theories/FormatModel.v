(** Model of latex2json/parser/handlers/formatting.py (all of FormattingHandler). *)
From Coq Require Import List NArith PeanoNat Bool String.
From Verif Require ContentModel.
From Verif Require Import PyStr Regex Json TexUtilsModel StyleModel.
Import ListNotations. Notation length := List.length. Notation concat := List.concat. Open Scope list_scope.

(** What is done with a match. *)
Inductive action :=
| ADrop                    (** None, match.end() *)
| AText (s : str)          (** a text token *)
| ANumber | APrev | ASpacing
| AGroup                   (** the group the match ends in is skipped *)
| ABlocks (n : nat)        (** up to n groups *)
| AEnsure | ATitle | AOptions | ADeclare | AClass | APhantom.

Local Notation "# s" := (rstr (lit s)) (at level 1, s at level 0).
Definition words (l : list string) : re := ralt (map (fun s => rstr (lit s)) l).
Definition sp : re := rstar rspace.
Definition no_rb : re := RChr (fun x => negb (N.eqb x c_rb)).
Definition no_rk : re := RChr (fun x => negb (N.eqb x c_rk)).
Definition no_rp : re := RChr (fun x => negb (N.eqb x 41)).
Definition name_ch : re := RChr (fun x => is_letter x || N.eqb x 64).
Definition letter_ch : re := RChr is_letter.
Definition non_letter : re := RChr (fun x => negb (is_letter x)).
Definition arith_ch : re := RChr (fun x => is_letter x || N.eqb x 64 || N.eqb x 42 || isdigit x).
(** patterns.py:8 NUMBER_PATTERN *)
Definition NUM : re := rseq [(ropt (rcls (lit "-+"))); (rstar rdigit); (ropt #"."); (rplus rdigit)].
(** patterns.py:18-20 number_points_suffix *)
Definition LENGTH : re := rseq [NUM; sp; ropt (words ["pt"; "mm"; "cm"; "in"; "em"; "ex"; "sp"; "bp"; "dd"; "cc"; "nd"; "nc"]%string); RAhead false (ralt [non_letter; REnd])].
(** an argument without a closing brace, possibly empty or not; patterns.py:5 *)
Definition ARG : re := rseq [sp; #"{"; rstar no_rb; #"}"].
Definition ARG1 : re := rseq [sp; #"{"; rplus no_rb; #"}"].
(** patterns.py:6 *)
Definition OPT : re := ropt (rseq [#"["; rstar no_rk; #"]"]).
Definition rci : str -> re := ContentModel.rci.

Section Patterns.
(** \w: letters, digits and the underscore, and some characters beyond ASCII *)
Variable u : ch -> bool.
Definition w (x : ch) : bool := is_letter x || isdigit x || N.eqb x 95 || (N.leb 128 x && u x).
(** formatting.py:46 *)
Definition P_comment : re := rseq [(RBehind true (N.eqb c_bs)); #"%"; (rstar rdot)].
(** formatting.py:48-55 *)
Definition P_class_setup : re := rseq [#"\"; (ralt [(rseq [#"NeedsTeXFormat"; ARG1]); (rseq [(words ["ProvidesClass"; "ProvidesPackage"]%string); ARG1; sp; #"["])])].
(** formatting.py:57 *)
Definition P_pdf : re := rseq [#"\"; (words ["pdfoutput"; "pdfsuppresswarningpagegroup"]%string); sp; #"="; sp; (rplus rdigit)].
(** formatting.py:58 *)
Definition P_pdfinfo : re := rseq [#"\pdfinfo"; sp; #"{"].
(** formatting.py:60 *)
Definition P_language : re := rseq [#"\setdefaultlanguage"; ARG1].
(** formatting.py:62 *)
Definition P_tracing : re := rseq [#"\tracinglostchars"; sp; #"="; sp; (rplus rdigit)].
(** formatting.py:64 *)
Definition P_date : re := rseq [#"\date"; sp; #"{"].
(** formatting.py:65 *)
Definition P_today : re := rseq [#"\today"; (RBound w)].
(** formatting.py:66 *)
Definition P_subjclass : re := rseq [#"\subjclass"; sp; OPT; ARG1].
(** formatting.py:68 *)
Definition P_setup : re := rseq [#"\"; (words ["hypersetup"; "captionsetup"]%string); OPT; sp; #"{"].
(** formatting.py:69-72 *)
Definition P_make_or_contents : re := rseq [#"\"; (ralt [(rseq [(ropt (rplus name_ch)); #"maketitle"]); #"makeatletter"; #"makeatother"; #"tableofcontents"; #"@title"]); (RBound w)].
(** formatting.py:73 *)
Definition P_addcontentsline : re := rseq [#"\addcontentsline"; ARG; ARG; ARG].
(** formatting.py:74 *)
Definition P_addtocontents : re := rseq [#"\"; (words ["addtocontents"; "addtocounter"]%string); sp; #"{"; (rstar no_rb); sp; #"}"; sp; #"{"].
(** formatting.py:75 *)
Definition P_titlecontents : re := rseq [#"\titlecontents"; sp; #"{"].
(** formatting.py:76 *)
Definition P_contents : re := rseq [#"\"; (words ["contentspage"; "startcontents"]%string); (RBound w)].
(** formatting.py:77 *)
Definition P_printcontents : re := rseq [#"\printcontents"; sp; #"{"].
(** formatting.py:78-81 *)
Definition P_page : re := ralt [(rseq [#"\enlargethispage"; ARG]); (rseq [#"\pagecolor"; (ropt #"*"); #"{"; (rstar no_rb); #"}"]); (rseq [#"\"; (words ["centering"; "raggedright"; "raggedleft"; "allowdisplaybreaks"; "samepage"; "thepage"; "noindent"; "par"; "clearpage"; "cleardoublepage"; "nopagebreak"; "hss"; "hfill"; "hfil"; "vfill"; "vfil"; "break"; "sloppy"; "flushbottom"; "flushleft"; "flushright"; "flushtop"]%string); (RBound w)])].
(** formatting.py:82-85 *)
Definition P_pagebreak : re := ralt [(rseq [#"\"; (words ["pagebreak"; "filbreak"; "newpage"; "allowbreak"; "goodbreak"; "smallbreak"; "medbreak"; "bigbreak"; "break"]%string); (RBound w)]); (rseq [#"\linebreak"; (ropt (rseq [#"["; (rplus rdigit); #"]"]))])].
(** formatting.py:86-89 *)
Definition P_vskip : re := rseq [#"\vskip"; sp; (ralt [(rseq [NUM; (rplus (RChr w)); (RBound w)]); (rseq [(ropt #"-"); #"\"; (rplus name_ch)]); (RBound w)])].
(** formatting.py:90-95 *)
Definition P_penalty : re := rseq [#"\"; (words ["penalty"; "clubpenalty"; "widowpenalty"; "interfootnotelinepenalty"]%string); sp; (ropt #"="); NUM; (RBound w)].
(** formatting.py:96-99 *)
Definition P_skip : re := rseq [#"\"; (ralt [#"bigskip"; #"medskip"; #"smallskip"; #"lastskip"; #"unskip"; (rseq [(words ["above"; "below"]%string); (words ["display"; "caption"]%string); (ropt #"short"); #"skip"])]); (RBound w)].
(** formatting.py:100-103 *)
Definition P_style : re := rseq [#"\"; (words ["pagestyle"; "urlstyle"; "thispagestyle"; "theoremstyle"; "bibliographystyle"; "documentstyle"; "setcitestyle"]%string); ARG].
(** formatting.py:104 *)
Definition P_bib : re := rseq [#"\printbibliography"; (RBound w)].
(** formatting.py:105 *)
Definition P_bibmacro : re := rseq [#"\renewbibmacro"; (ropt #"*"); ARG1; sp; #"{"].
(** formatting.py:106 *)
Definition P_newstyle : re := rseq [#"\"; (words ["newpagestyle"; "renewpagestyle"]%string); ARG; sp; #"{"].
(** formatting.py:109 *)
Definition P_lstset : re := rseq [#"\lstset"; sp; #"{"].
(** formatting.py:110-113 *)
Definition P_setlist : re := rseq [#"\setlist"; sp; OPT; sp; #"{"].
(** formatting.py:114-117 *)
Definition P_value : re := rseq [#"\value"; ARG1].
(** formatting.py:119-124 *)
Definition P_margins : re := ralt [(rseq [#"\"; (words ["rightmargin"; "leftmargin"]%string); (RBound w)]); (rseq [#"\"; (words ["topmargin"; "oddsidemargin"; "evensidemargin"; "textwidth"; "textheight"; "skip"; "footskip"; "headheight"; "headsep"; "footnotesep"; "marginparsep"; "marginparwidth"; "parindent"; "itemindent"; "parskip"; "vfuzz"; "hfuzz"; "hoffset"; "voffset"]%string); sp; (ropt (rseq [(ropt #"="); sp; LENGTH]))])].
(** formatting.py:125 *)
Definition P_indent : re := rseq [#"\indent"; (RBound w)].
(** formatting.py:126-130 *)
Definition P_lineskip : re := ralt [(rseq [#"\lineskip"; sp; LENGTH]); (rseq [(ropt NUM); #"\baselineskip"; (ropt (rseq [sp; LENGTH]))])].
(** formatting.py:132-135 *)
Definition P_width : re := rseq [#"\"; (words ["linewidth"; "columnwidth"; "textwidth"; "hsize"; "labelwidth"]%string); (RBound w)].
(** formatting.py:137-145 *)
Definition P_spacing : re := rseq [#"\"; (ralt [#"quad"; #"qquad"; #"xspace"; #"space"; #","; #";"; #":"; #"!"; (rseq [#"hspace"; (ropt #"*"); ARG1]); (rseq [#"hskip"; sp; LENGTH]); (rseq [#"linespread"; ARG])])].
(** formatting.py:146-149 *)
Definition P_toolset : re := rseq [#"\mathtoolsset"; ARG1].
(** formatting.py:151 *)
Definition P_kern : re := rseq [#"\kern"; sp; LENGTH].
(** formatting.py:153 *)
Definition P_tcb : re := rseq [#"\"; (words ["tcbset"; "tcbuselibrary"]%string); sp; #"{"].
(** formatting.py:155-162 *)
Definition P_options : re := ralt [(rseq [#"\"; (ralt [(rseq [#"ProcessOptions"; (RBound w)]); (rseq [(words ["PassOptionsToPackage"; "PassOptionsToClass"]%string); ARG1; ARG1])])]); (rseq [#"\ExecuteBibliographyOptions"; ARG1])].
(** formatting.py:163-169 *)
Definition P_declare : re := rseq [#"\"; (RGrp 1 (words ["DeclareFontShape"; "DeclareFontFamily"; "DeclareOption"; "DeclareSymbolFont"; "SetMathAlphabet"; "DeclareGraphicsExtensions"]%string)); (ropt #"*"); sp; #"{"].
(** formatting.py:170-178 *)
Definition P_fontsetters : re := ralt [(rseq [#"\"; (words ["text"; "script"; "scriptscript"]%string); #"font\"; (rplus name_ch); sp; #"="; sp; #"\"; (rplus name_ch); (RBound w)]); (rseq [#"\setmathfont"; sp; OPT; ARG1])].
(** formatting.py:180 *)
Definition P_number : re := rseq [#"\num"; (ropt (rseq [#"["; (RGrp 1 (rstar no_rk)); #"]"])); sp; #"{"; (RGrp 2 (rstar no_rb)); #"}"].
(** formatting.py:181-187 *)
Definition P_linenumbers : re := rseq [(rci (lit "\")); (ralt [(rseq [(rci (lit "linenumbers")); (RBound w)]); (rseq [(rci (lit "linesnumbered")); (RBound w)]); (rseq [(rci (lit "numberwithin")); sp; (rci (lit "{")); (rstar no_rb); (rci (lit "}")); sp; (rci (lit "{")); (rstar no_rb); (rci (lit "}"))])])].
(** formatting.py:188-194 *)
Definition P_numbering_style : re := ralt [(rseq [#"\"; (words ["arabic"; "roman"; "alph"; "fnsymbol"]%string); (ralt [(rseq [ARG]); (RBound w)])]); (rseq [#"\pagenumbering"; ARG])].
(** formatting.py:196 *)
Definition P_itemsep : re := rseq [#"\itemsep"; sp; (ropt (rseq [#"="; sp])); (ropt #"-"); (rstar rdigit); (ropt #"."); (rplus rdigit); (RSeq (RChr w) (rlazy (RChr w))); (RBound w)].
(** formatting.py:197-224 *)
Definition P_separators : re := rseq [#"\"; (ralt [(rseq [#"hline"; (RBound w)]); (rseq [#"center"; (RBound w)]); (rseq [#"hrulefill"; (RBound w)]); (rseq [#"centerline"; (RBound w)]); (rseq [#"cline"; ARG1]); (rseq [#"topsep"; (RBound w)]); (rseq [#"parsep"; (RBound w)]); (rseq [#"partopsep"; (RBound w)]); (rseq [#"labelsep"; sp; (ropt #"{"); (rstar no_rb); (ropt #"}")]); (rseq [(words ["midrule"; "toprule"; "bottomrule"]%string); OPT]); (rseq [#"cmidrule"; sp; (ropt (rseq [#"("; (rplus no_rp); #")"; sp])); (ropt (rseq [#"["; (rstar no_rk); #"]"; sp])); #"{"; (rplus no_rb); #"}"]); (rseq [#"hdashline"; (ropt (rseq [#"["; (rstar (RChr (fun x => isdigit x || N.eqb x c_comma || isspace x))); #"]"]))]); (rseq [#"cdashline"; ARG1]); (rseq [#"specialrule"; ARG; ARG; ARG]); (rseq [#"addlinespace"; OPT]); (rseq [#"rule"; ARG; ARG]); (rseq [#"hrule"; (RBound w)]); (rseq [#"morecmidrules"; (RBound w)]); (rseq [#"fboxsep"; ARG1]); (rseq [#"Xhline"; ARG1]); (rseq [#"tabcolsep"; (RBound w)]); (rseq [#"colrule"; (RBound w)]); (rseq [#"noalign"; (RBound w)]); (rseq [#"endfirsthead"; (RBound w)])])].
(** formatting.py:225-229 *)
Definition P_rulewidth : re := rseq [#"\"; (words ["arrayrulewidth"; "heavyrulewidth"; "overfullrule"]%string); (ropt (rseq [sp; (ropt #"="); sp; NUM; (ropt (rplus (RChr w)))]))].
(** formatting.py:230 *)
Definition P_paper : re := rseq [#"\"; (words ["paperwidth"; "paperheight"]%string); (ropt (rseq [sp; #"="; sp; NUM; (ropt (rplus (RChr w)))]))].
(** formatting.py:231 *)
Definition P_protect : re := rseq [#"\protect\"; (rplus letter_ch); (ropt (rseq [sp; (rstar (ralt [(rseq [#"["; (rstar no_rk); #"]"]); (rseq [#"{"; (rstar no_rb); #"}"])]))]))].
(** formatting.py:232-235 *)
Definition P_counters : re := ralt [(rseq [#"\c@page"; (RBound w)]); (rseq [#"\"; (words ["counterwithin"; "counterwithout"]%string); ARG; ARG]); (rseq [#"\refstepcounter{"; (rplus no_rb); #"}"]); (rseq [#"\@addtoreset"; ARG; ARG])].
(** formatting.py:236 *)
Definition P_add_enumerate_counter : re := rseq [#"\AddEnumerateCounter"; sp; #"{"].
(** formatting.py:237 *)
Definition P_backslash : re := rseq [#"\"; (words ["backslash"; "textbackslash"; "arraybackslash"]%string); (RBound w)].
(** formatting.py:238 *)
Definition P_geometry : re := rseq [#"\geometry"; sp; #"{"].
(** formatting.py:239 *)
Definition P_ensuremath : re := rseq [#"\ensuremath"; sp; #"{"].
(** formatting.py:240 *)
Definition P_stackmath : re := rseq [#"\stackMath"; (RBound w)].
(** formatting.py:241 *)
Definition P_hyphenation : re := rseq [#"\hyphenation"; sp; #"{"].
(** formatting.py:243 *)
Definition P_vspace : re := rseq [#"\vspace"; (ropt #"*"); ARG].
(** formatting.py:244 *)
Definition P_phantom : re := rseq [#"\"; (words ["hphantom"; "vphantom"; "phantom"]%string); sp; #"{"].
(** formatting.py:245-250 *)
Definition P_raise : re := rseq [#"\"; (words ["raise"; "lower"]%string); sp; (ralt [(rseq [NUM; (rplus (RChr w)); (RBound w)]); (rseq [#"{"; (rstar no_rb); #"}"])]); (rstar (rseq [ARG]))].
(** formatting.py:251-256 *)
Definition P_other : re := rseq [#"\"; (words ["ignorespaces"; "relax"; "repeat"; "@tempboxa"; "box"; "global"; "@plus"; "@minus"; "null"; "FloatBarrier"; "footins"; "phantomsection"]%string); (RBound w)].
(** formatting.py:257 *)
Definition P_newmdenv : re := rseq [#"\newmdenv"; sp; (ropt (rseq [#"["; (rlazy rany); #"]"])); sp; #"{"; (rlazy rany); #"}"].
(** formatting.py:258 *)
Definition P_pzat : re := rseq [(ropt NUM); #"\"; (rcls (lit "pz")); #"@"; (RAhead true name_ch)].
(** formatting.py:259 *)
Definition P_slash : re := #"\/".
(** formatting.py:260 *)
Definition P_atempty : re := rseq [#"\@empty"; (RAhead true name_ch)].
(** formatting.py:261-264 *)
Definition P_advance : re := rseq [#"\"; (words ["advance"; "divide"; "multiply"]%string); (ropt (rseq [#"\"; (rplus arith_ch)])); (ropt (rseq [(rplus rspace); #"by"])); (ropt (rseq [sp; #"-"])); (ropt (rseq [sp; (ropt #"\"); (rplus arith_ch)]))].
(** formatting.py:265 *)
Definition P_typeout : re := rseq [#"\typeout"; sp; #"{"].
(** formatting.py:267 *)
Definition P_physics : re := rseq [#"\pacs"; sp; #"{"; (rlazy rdot); #"}"].
(** formatting.py:268 *)
Definition P_Hyat : re := rseq [#"\Hy@"; (rplus letter_ch); sp; #"{"].
(** formatting.py:269 *)
Definition P_unvbox : re := rseq [#"\unvbox"; sp; (ralt [NUM; (rseq [#"\"; (rplus name_ch); (RBound w)])])].
(** formatting.py:270 *)
Definition P_string_or_chars : re := ralt [(rseq [#"\string"; (RBound w)]); (rseq [#"\escapechar"; (RBound w)])].
(** formatting.py:271-277 *)
Definition P_dims : re := rseq [#"\"; (words ["wd"; "ht"; "dp"]%string); (ralt [(rplus rdigit); (ralt [(rseq [#"{"; (rplus no_rb); #"}"]); (rseq [#"\"; (ralt [(rplus name_ch); (rplus (rcls (lit "<>=,.;!|$%&#_{}()[]~"))); rdigit])])])])].
(** formatting.py:278 *)
Definition P_debug : re := rseq [#"\"; (words ["showthe"; "the"]%string); (RBound w)].
(** formatting.py:19-27 *)
Definition P_color_cells : re := rseq [#"\"; (words ["row"; "column"; "cell"]%string); #"color"; (ropt #"*"); sp; OPT; ARG].

(** formatting.py:43-288: the patterns in the order in which they are tried, with what handle does
    with a match (formatting.py:362-475) *)
Definition TABLE : list (string * (re * action)) :=
  [("comment", (P_comment, ADrop));
   ("class_setup", (P_class_setup, AClass));
   ("pdf", (P_pdf, ADrop));
   ("pdfinfo", (P_pdfinfo, AGroup));
   ("language", (P_language, ADrop));
   ("tracing", (P_tracing, ADrop));
   ("date", (P_date, AGroup));
   ("today", (P_today, ADrop));
   ("subjclass", (P_subjclass, ADrop));
   ("setup", (P_setup, AGroup));
   ("make_or_contents", (P_make_or_contents, ADrop));
   ("addcontentsline", (P_addcontentsline, ADrop));
   ("addtocontents", (P_addtocontents, AGroup));
   ("titlecontents", (P_titlecontents, ATitle));
   ("contents", (P_contents, ADrop));
   ("printcontents", (P_printcontents, ABlocks 3));
   ("page", (P_page, ADrop));
   ("pagebreak", (P_pagebreak, AText [10%N]));
   ("vskip", (P_vskip, ADrop));
   ("penalty", (P_penalty, ADrop));
   ("skip", (P_skip, ADrop));
   ("style", (P_style, ADrop));
   ("bib", (P_bib, ADrop));
   ("bibmacro", (P_bibmacro, AGroup));
   ("newstyle", (P_newstyle, AGroup));
   ("lstset", (P_lstset, AGroup));
   ("setlist", (P_setlist, AGroup));
   ("value", (P_value, ADrop));
   ("margins", (P_margins, ADrop));
   ("indent", (P_indent, AText [9%N]));
   ("lineskip", (P_lineskip, ADrop));
   ("width", (P_width, ADrop));
   ("spacing", (P_spacing, ASpacing));
   ("toolset", (P_toolset, ADrop));
   ("kern", (P_kern, ADrop));
   ("tcb", (P_tcb, ABlocks 1));
   ("options", (P_options, AOptions));
   ("declare", (P_declare, ADeclare));
   ("fontsetters", (P_fontsetters, ADrop));
   ("number", (P_number, ANumber));
   ("linenumbers", (P_linenumbers, ADrop));
   ("numbering_style", (P_numbering_style, ADrop));
   ("itemsep", (P_itemsep, ADrop));
   ("separators", (P_separators, ADrop));
   ("rulewidth", (P_rulewidth, ADrop));
   ("paper", (P_paper, ADrop));
   ("protect", (P_protect, ADrop));
   ("counters", (P_counters, ADrop));
   ("add_enumerate_counter", (P_add_enumerate_counter, ABlocks 3));
   ("backslash", (P_backslash, AText [c_bs; c_bs]));
   ("geometry", (P_geometry, AGroup));
   ("ensuremath", (P_ensuremath, AEnsure));
   ("stackmath", (P_stackmath, ADrop));
   ("hyphenation", (P_hyphenation, AGroup));
   ("vspace", (P_vspace, AText [10%N]));
   ("phantom", (P_phantom, APhantom));
   ("raise", (P_raise, ADrop));
   ("other", (P_other, ADrop));
   ("newmdenv", (P_newmdenv, ADrop));
   ("pz@", (P_pzat, APrev));
   ("slash", (P_slash, ADrop));
   ("@empty", (P_atempty, ADrop));
   ("advance", (P_advance, ADrop));
   ("typeout", (P_typeout, AGroup));
   ("physics", (P_physics, ADrop));
   ("Hy@", (P_Hyat, AGroup));
   ("unvbox", (P_unvbox, ADrop));
   ("string_or_chars", (P_string_or_chars, ADrop));
   ("dims", (P_dims, ADrop));
   ("debug", (P_debug, ADrop));
   ("color_cells", (P_color_cells, ADrop))]%string.

(** formatting.py:31-40 *)
Definition declare_N (cmd : str) : nat :=
  if str_eqb cmd (lit "DeclareFontFamily") then 3 else if str_eqb cmd (lit "DeclareFontShape") then 6 else if str_eqb cmd (lit "DeclareOption") then 2
  else if str_eqb cmd (lit "SetMathAlphabet") then 6 else if str_eqb cmd (lit "DeclareSymbolFont") then 5 else 1.

(** formatting.py:300-305: text[:i+1] for the last i at which no number starts *)
Fixpoint cut_number (text : str) (k : nat) : option str :=
  match k with
  | O => None
  | S i => match re_match_at NUM (skipn i text) 0 with None => Some (firstn (S i) text) | Some _ => cut_number text i end
  end.
(** formatting.py:288-307; the token is changed in place *)
Definition strip_trailing_number (token : val) : res val :=
  match token with
  | VDict (kv :: d) =>
      let d := kv :: d in
      if val_eqb (get (lit "type") d) (VStr (lit "text")) then
        do c <- getitem (lit "content") d;
        match c with
        | VStr [] => Ok token
        | VStr text =>
            match re_match_at (RSeq RStart (RSeq NUM REnd)) text 0 with
            | Some _ => Ok (VDict (set (lit "content") (VStr []) d))
            | None => match cut_number text (length text) with Some t => Ok (VDict (set (lit "content") (VStr t) d)) | None => Ok token end
            end
        | _ => if truthy c then Raise TypeError else Ok token
        end
      else Ok token
  | _ => Ok token
  end.
(** decimal.Decimal(number).quantize(0.00..., ROUND_HALF_UP) with the number of places, as text;
    None is an exception that is caught *)
Variable quantize : str -> str -> option str.
Definition P_precision : re := RSeq (rstr (lit "round-precision=")) (RGrp 1 (rplus rdigit)).
(** formatting.py:312-343 *)
Definition format_number (number : str) (options : option str) : str :=
  match options with
  | None | Some [] => number
  | Some o =>
      match re_search P_precision o with
      | Some m => match m_group o 1 m with Some p => match quantize number p with Some r => r | None => number end | None => number end
      | None => number
      end
  end.
Definition text_token (s : str) : val := VDict [(lit "type", VStr (lit "text")); (lit "content", VStr s)].
Definition blocks_end (s : str) (o c : ch) (n : nat) : nat := snd (extract_nested_content_sequence_blocks s o c (Some n)).
(** formatting.py:477-500 *)
Definition title_end (content : str) (start : nat) : nat :=
  let p1 := start + blocks_end (skipn start content) c_lb c_rb 1 in
  let p2 := p1 + blocks_end (skipn p1 content) c_lk c_rk 1 in
  let p3 := p2 + blocks_end (skipn p2 content) c_lb c_rb 4 in
  p3 + blocks_end (skipn p3 content) c_lk c_rk 1.
(** formatting.py:362-475: the token, the end, and the previous token afterwards *)
Definition act (content : str) (prev : val) (a : action) (m : mobj) : res (option val * nat * val) :=
  let e := m_end m in
  let start := e - 1 in
  let rest := skipn start content in
  let g0 := firstn e content in
  let done t n := Ok (t, n, prev) in
  let before := if truthy prev then strip_trailing_number prev else Ok prev in
  match a with
  | ANumber => done (Some (text_token (format_number (match m_group content 2 m with Some n => n | None => [] end) (m_group content 1 m)))) e
  | APrev => do p <- before; Ok (None, e, p)
  | _ =>
      if startswith g0 (lit "\baselineskip") then do p <- before; Ok (None, e, p)
      else
        match a with
        | AText s => done (Some (text_token s)) e
        | ASpacing => if str_eqb g0 (lit "\!") then done None e else done (Some (text_token [c_sp])) e
        | AGroup => done None (start + snd (extract_nested_content rest c_lb c_rb))
        | ABlocks n => done None (start + blocks_end rest c_lb c_rb n)
        | AEnsure =>
            let '(c, n) := extract_nested_content rest c_lb c_rb in
            done (Some (VDict [(lit "type", VStr (lit "equation")); (lit "content", match c with Some b => VStr b | None => VNone end); (lit "display", VStr (lit "inline"))])) (start + n)
        | ATitle => done None (title_end content start)
        | ADeclare => done None (start + blocks_end rest c_lb c_rb (declare_N (match m_group content 1 m with Some c => c | None => [] end)))
        | AOptions => if endswith g0 [c_lb] then done None (start + snd (extract_nested_content rest c_lb c_rb)) else done None e
        | AClass => if endswith g0 [c_lk] then done None (start + snd (extract_nested_content rest c_lk c_rk)) else done None e
        | APhantom =>
            let '(c, n) := extract_nested_content rest c_lb c_rb in
            if startswith g0 (lit "\hphantom") then
              match c with Some b => done (Some (text_token (repeat c_sp (length b)))) (start + n) | None => Raise TypeError end
            else done (Some (text_token [10%N])) (start + n)
        | _ => done None e
        end
  end.
(** formatting.py:349-475 *)
Fixpoint try_table (table : list (string * (re * action))) (exclude : list string) (content : str) (prev : val) : res (option val * nat * val) :=
  match table with
  | [] => Ok (None, 0, prev)
  | (name, (r, a)) :: t =>
      if existsb (String.eqb name) exclude then try_table t exclude content prev
      else match re_match_at r content 0 with
           | Some m => act content prev a m
           | None => try_table t exclude content prev
           end
  end.
Definition fmt_handle (exclude : list string) (prev : val) (content : str) : res (option val * nat * val) := try_table TABLE exclude content prev.
(** formatting.py:346-347 *)
Definition fmt_can_handle (content : str) : bool := existsb (fun e => match re_match_at (fst (snd e)) content 0 with Some _ => true | None => false end) TABLE.
End Patterns.
