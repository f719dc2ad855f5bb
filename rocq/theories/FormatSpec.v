(** Vocabulary for C99-C101: formatting commands. *)
From Coq Require Import List NArith PeanoNat Bool String.
From Verif Require Import PyStr DelimSpec StyleSpec Json.
Import ListNotations. Notation length := List.length. Notation concat := List.concat. Open Scope list_scope.

(** a token as the parser keeps it: the content of a text token is a text *)
Definition token_ok (v : val) : Prop := match v with VDict d => get (lit "type") d = VStr (lit "text") -> exists s, lookup (lit "content") d = Some (VStr s) | _ => True end.
Definition digit (x : ch) : Prop := (48 <= x <= 57)%N.
Definition number_char (x : ch) : Prop := digit x \/ In x (lit "-+.").
(** the previous token afterwards: unchanged, or a text token that has lost digits, signs and dots at its end *)
Definition number_cut (before after : val) : Prop :=
  after = before \/ exists d a b, before = VDict d /\ get (lit "type") d = VStr (lit "text") /\ lookup (lit "content") d = Some (VStr (a ++ b)) /\
    (Forall number_char b \/ exists b', b = b' ++ [10%N] /\ Forall number_char b') /\ after = VDict (set (lit "content") (VStr a) d).
Definition text_of (s : str) : val := VDict [(lit "type", VStr (lit "text")); (lit "content", VStr s)].
(** \word and what it stands for: nothing, a blank, a new line, ... *)
Definition removed : list string :=
  ["makeatletter"; "makeatother"; "tableofcontents"; "maketitle"; "@title"; "contentspage"; "startcontents"; "today"; "centering"; "raggedright"; "raggedleft"; "allowdisplaybreaks"; "samepage"; "thepage"; "noindent"; "par";
   "clearpage"; "cleardoublepage"; "nopagebreak"; "hss"; "hfill"; "hfil"; "vfill"; "vfil"; "break"; "sloppy"; "flushbottom"; "flushleft"; "flushright"; "flushtop"; "bigskip"; "medskip"; "smallskip"; "lastskip"; "unskip";
   "abovedisplayskip"; "belowdisplayskip"; "abovecaptionskip"; "belowcaptionskip"; "abovedisplayshortskip"; "belowdisplayshortskip"; "printbibliography"; "rightmargin"; "leftmargin"; "linewidth"; "columnwidth"; "hsize"; "labelwidth";
   "ProcessOptions"; "linenumbers"; "linesnumbered"; "hline"; "hrulefill"; "centerline"; "topsep"; "parsep"; "partopsep"; "morecmidrules"; "tabcolsep"; "colrule"; "noalign"; "endfirsthead"; "c@page"; "stackMath";
   "ignorespaces"; "relax"; "repeat"; "@tempboxa"; "box"; "global"; "@plus"; "@minus"; "null"; "FloatBarrier"; "footins"; "phantomsection"; "string"; "escapechar"; "showthe"]%string.
Definition new_line : list string := ["pagebreak"; "filbreak"; "newpage"; "allowbreak"; "goodbreak"; "smallbreak"; "medbreak"; "bigbreak"]%string.
Definition blanks : list string := ["quad"; "qquad"; "xspace"; "space"; ","; ";"; ":"]%string.
(** the command ends here: no letter, digit, underscore or at sign follows (beyond ASCII: no word character) *)
Definition name_over (u : ch -> bool) (rest : str) : Prop :=
  forall x r, rest = x :: r -> ~ letter x /\ ~ digit x /\ x <> 95%N /\ x <> 64%N /\ ((128 <= x)%N -> u x = false).
(** listed words that another command of the handler goes on: \parindent, \parskip, \partopsep, \hfill, \vfill, \newpagestyle *)
Definition continued (word : string) (x : ch) : Prop :=
  In (word, x) [("par"%string, 105%N); ("par"%string, 115%N); ("par"%string, 116%N); ("hfil"%string, 108%N); ("vfil"%string, 108%N); ("newpage"%string, 115%N)].
(** commands with a group that is removed with them *)
Definition setup_commands : list string :=
  ["hypersetup"; "captionsetup"; "lstset"; "setlist"; "geometry"; "hyphenation"; "typeout"; "pdfinfo"; "date"; "tcbset"; "tcbuselibrary"]%string.
(** commands with one argument that may not contain a closing brace *)
Definition style_commands : list string :=
  ["pagestyle"; "urlstyle"; "thispagestyle"; "theoremstyle"; "bibliographystyle"; "documentstyle"; "setcitestyle"; "enlargethispage"; "pagenumbering"]%string.
