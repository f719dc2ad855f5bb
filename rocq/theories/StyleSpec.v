(** Vocabulary for C86-C87: commands that give their argument a style. *)
From Coq Require Import List NArith PeanoNat Bool String.
From Verif Require Import PyStr Json DelimSpec.
Import ListNotations. Notation length := List.length. Open Scope list_scope.

(** The style commands and the style each of them gives. *)
Definition style_commands : list (str * option str) :=
  [(lit "textbf", Some (lit "bold")); (lit "textit", Some (lit "italic")); (lit "textsl", Some (lit "italic")); (lit "emph", Some (lit "italic"));
   (lit "textsc", Some (lit "small-caps")); (lit "textsf", Some (lit "sans-serif")); (lit "texttt", Some (lit "monospace"));
   (lit "textrm", Some (lit "normal")); (lit "textup", Some (lit "normal"));
   (lit "texttiny", Some (lit "xx-small")); (lit "textscriptsize", Some (lit "x-small")); (lit "textfootnotesize", Some (lit "small"));
   (lit "textsmall", Some (lit "small")); (lit "textnormal", Some (lit "medium")); (lit "textlarge", Some (lit "large")); (lit "texthuge", Some (lit "xx-large"));
   (lit "textsuperscript", Some (lit "superscript")); (lit "textsubscript", Some (lit "subscript"));
   (lit "underline", Some (lit "underline")); (lit "overline", Some (lit "overline")); (lit "textoverline", Some (lit "overline"));
   (lit "textstrikeout", Some (lit "line-through")); (lit "sout", Some (lit "line-through"));
   (lit "uppercase", Some (lit "uppercase")); (lit "lowercase", Some (lit "lowercase")); (lit "text", None); (lit "natexlab", None)].
Definition letter (x : ch) : Prop := (65 <= x <= 90 \/ 97 <= x <= 122)%N.

(** The styles of a token. *)
Definition has_styles (d : dict) (l : list str) : Prop :=
  lookup (lit "styles") d = Some (VList (map VStr l)) \/ (lookup (lit "styles") d = None /\ l = []).
(** [firsts seen l o]: [o] is [l] without what is in [seen] or came before. *)
Inductive firsts : list str -> list str -> list str -> Prop :=
| fi_nil : forall seen, firsts seen [] []
| fi_old : forall seen x l o, In x seen -> firsts seen l o -> firsts seen (x :: l) o
| fi_new : forall seen x l o, ~ In x seen -> firsts (x :: seen) l o -> firsts seen (x :: l) (x :: o).
Definition styled_with (l : list str) (d : dict) : val := VDict (set (lit "styles") (VList (map VStr l)) d).
Definition opt_list (s : option str) : list str := match s with Some x => [x] | None => [] end.
(** The tokens of the argument after the command: nothing for no tokens; the new style comes
    before the styles of each token; in a single token, styles are not repeated. *)
Inductive styled (style : option str) : list val -> val -> Prop :=
| sd_none : styled style [] VNone
| sd_one : forall d old l, has_styles d old -> firsts [] (opt_list style ++ old) l -> styled style [VDict d] (styled_with l d)
| sd_many : forall s toks outs, style = Some s -> 2 <= length toks ->
    Forall2 (fun t o => exists d old, t = VDict d /\ has_styles d old /\ o = styled_with (s :: old) d) toks outs -> styled style toks (VList outs)
| sd_plain : forall toks, style = None -> 2 <= length toks -> styled style toks (VList toks).

(** The token for a list of tokens: a single text token is itself, anything else is a group. *)
Inductive as_one : list val -> dict -> Prop :=
| ao_text : forall d, lookup (lit "type") d = Some (VStr (lit "text")) -> as_one [VDict d] d
| ao_group : forall l, (forall d, l = [VDict d] -> lookup (lit "type") d <> Some (VStr (lit "text"))) ->
    as_one l [(lit "type", VStr (lit "group")); (lit "content", VList l)].
(** the colour model in brackets *)
Inductive model_at (w : ch -> bool) : option str -> str -> Prop :=
| mo_none : model_at w None []
| mo_some : forall ws m, blank ws -> m <> [] -> forallb w m = true -> model_at w (Some m) (ws ++ [c_lk] ++ m ++ [c_rk]).
Definition color_style (model : option str) (name : str) : str :=
  lit "color=" ++ match model with Some m => lit "{" ++ m ++ lit ":" ++ name ++ lit "}" | None => name end.
Definition group_of (l : list val) : val := VDict [(lit "type", VStr (lit "group")); (lit "content", VList l)].
Definition caption_of (d : dict) : val := VDict [(lit "type", VStr (lit "caption")); (lit "content", VList [VDict d])].
