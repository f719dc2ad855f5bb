(** Vocabulary for C102-C105: the declarations of a document, as they are written. *)
From Coq Require Import List NArith ZArith PeanoNat Bool String.
From Verif Require Import PyStr DelimSpec CommandSpec DefModel.
Import ListNotations. Notation length := List.length. Notation concat := List.concat. Open Scope list_scope.

Definition braced (s : str) : str := [c_lb] ++ s ++ [c_rb].
Definition bracketed (s : str) : str := [c_lk] ++ s ++ [c_rk].
Definition optional (o : option str) : str := match o with Some s => bracketed s | None => [] end.
(** an argument that is empty counts as absent *)
Definition given (o : option str) : option str := match o with Some [] => None | _ => o end.
(** [rest] does not begin with [x] *)
Definition not_next (x : ch) (rest : str) : Prop := forall r, rest <> x :: r.
(** [rest] is empty or begins with a blank or a character of [stop] *)
Definition stops (stop : str) (rest : str) : Prop := match rest with [] => True | x :: _ => isspace x = true \/ In x stop end.
(** no blank and no character of [stop] *)
Definition solid (stop name : str) : Prop := name <> [] /\ forall x, In x name -> isspace x = false /\ ~ In x stop.
Definition counter_words : list string := ["\newcounter"; "\renewcounter"; "\stepcounter"]%string.
Definition length_words : list string := ["\newlength"; "\renewlength"]%string.
Definition setlength_words : list string := ["\setlength"; "\addtolength"; "\settoheight"; "\settodepth"; "\settowidth"]%string.
Definition register_words : list string :=
  ["\newcount"; "\newdimen"; "\newskip"; "\newmuskip"; "\renewcount"; "\renewdimen"; "\renewskip"; "\renewmuskip"]%string.
(** the units that \font understands *)
Definition units : list string := ["pt"; "cm"; "mm"; "in"; "ex"; "em"; "bp"; "dd"; "pc"; "sp"]%string.
Definition digits (s : str) : Prop := s <> [] /\ forallb isdigit s = true.
Definition size_text (a b num unit : str) : str := a ++ lit "at" ++ b ++ num ++ unit.
Inductive size_number : str -> Prop :=
| sn_int : forall d, digits d -> size_number d
| sn_dec : forall d e, digits d -> digits e -> size_number (d ++ lit "." ++ e).
(** a register or length written directly behind the command: \name or {\name} with blanks inside the braces *)
Inductive register_written (name : str) : str -> (str -> Prop) -> Prop :=
| rw_plain : word name -> register_written name ([c_bs] ++ name) word_end
| rw_braced : forall a b, word name -> blank a -> blank b -> register_written name (braced (a ++ [c_bs] ++ name ++ b)) (fun _ => True).

(** [declares source token follow]: [source] is a declaration, [token] what it says, provided that the
    text behind it is as [follow] says *)
Inductive declares : str -> dtok -> (str -> Prop) -> Prop :=
| d_theorem : forall star name counter title within, In star [[]; lit "*"] -> ~ In c_rb name -> ~ In c_rb title ->
    (forall s, counter = Some s \/ within = Some s -> ~ In c_rk s) ->
    declares (lit "\newtheorem" ++ star ++ braced name ++ optional counter ++ braced title ++ optional within)
      (DTheorem name title (given counter) (given within)) (fun rest => within = None -> not_next c_lk rest)
| d_crefname : forall word name singular plural, In word [lit "\crefname"; lit "\Crefname"] -> ~ In c_rb name -> ~ In c_rb singular ->
    (forall s, plural = Some s -> ~ In c_rb s) ->
    declares (word ++ braced name ++ braced singular ++ match plural with Some s => braced s | None => [] end)
      (DCref name singular (match plural with Some s => s | None => [] end)) (fun rest => plural = None -> not_next c_lb rest)
| d_floatname : forall name title, ~ In c_rb name -> ~ In c_rb title -> declares (lit "\floatname" ++ braced name ++ braced title) (DFloat name title) (fun _ => True)
| d_counter : forall word gap name, In word counter_words -> blank gap -> name <> [] -> ~ In c_rb name ->
    declares (lit word ++ gap ++ braced name) (DCounter (strip name)) (fun _ => True)
| d_setcounter : forall gap name gap2 value, blank gap -> blank gap2 -> name <> [] -> ~ In c_rb name -> value <> [] -> ~ In c_rb value ->
    declares (lit "\setcounter" ++ gap ++ braced name ++ gap2 ++ braced value) (DCounter (strip name)) (fun _ => True)
| d_if : forall word gap name, In word [lit "\newif"; lit "\renewif"] -> blank gap -> solid [c_lb; c_bs] name ->
    declares (word ++ gap ++ lit "\if" ++ name) (DIf name) (stops [c_lb; c_bs])
| d_toks : forall gap name source follow, blank gap -> register_written name source follow -> declares (lit "\newtoks" ++ gap ++ source) (DToks name) follow
| d_length : forall word name source follow, In word length_words -> register_written name source follow -> declares (lit word ++ source) (DLength name) follow
| d_setlength : forall word name source follow body, In word setlength_words -> register_written name source follow -> good_body body ->
    declares (lit word ++ source ++ braced body) (DLength name) (fun _ => True)
| d_setlength_gap : forall keyword name a b gap body, In keyword setlength_words -> word name -> blank a -> blank b -> blank gap -> good_body body ->
    declares (lit keyword ++ braced (a ++ [c_bs] ++ name ++ b) ++ gap ++ braced body) (DLength name) (fun _ => True)
| d_register : forall word gap name, In word register_words -> blank gap -> solid [c_lb; c_lk] name ->
    declares (lit word ++ gap ++ [c_bs] ++ name) (DOther name) (stops [c_lb; c_lk])
| d_fam : forall gap name, blank gap -> solid [c_lb; c_lk] name -> declares (lit "\newfam" ++ gap ++ [c_bs] ++ name) (DFam name) (stops [c_lb; c_lk])
| d_color : forall gap name g1 format g2 value, blank gap -> blank g1 -> blank g2 -> good_body name -> good_body format -> good_body value ->
    declares (lit "\definecolor" ++ gap ++ braced name ++ g1 ++ braced format ++ g2 ++ braced value) (DColor name format value) (fun _ => True)
| d_paired : forall gap name (in_braces : bool) g1 left g2 right, blank gap -> blank g1 -> blank g2 -> solid [c_lb; c_rb] name -> good_body left -> good_body right ->
    declares (lit "\DeclarePairedDelimiter" ++ gap ++ (if in_braces then braced ([c_bs] ++ name) else [c_bs] ++ name) ++ g1 ++ braced left ++ g2 ++ braced right)
      (DPaired name left right) (fun _ => True)
| d_font : forall gap name g1 g2 source, blank gap -> blank g1 -> blank g2 -> solid (lit "=") name -> solid [] source ->
    declares (lit "\font" ++ gap ++ [c_bs] ++ name ++ g1 ++ lit "=" ++ g2 ++ source) (DFont name source None)
      (fun rest => rest = [] \/ exists a r, rest = a ++ r /\ a <> [] /\ blank a /\ (forall x q, r = x :: q -> isspace x = false) /\ forall q, r <> lit "at" ++ q)
| d_font_size : forall gap name g1 g2 source a b num unit, blank gap -> blank g1 -> blank g2 -> solid (lit "=") name -> solid [] source ->
    blank a -> a <> [] -> blank b -> b <> [] -> size_number num -> In unit (map lit units) ->
    declares (lit "\font" ++ gap ++ [c_bs] ++ name ++ g1 ++ lit "=" ++ g2 ++ source ++ size_text a b num unit) (DFont name source (Some (num, unit))) (fun _ => True).
(** declarations that are read and have no token *)
Inductive skipped : str -> Prop :=
| s_boolean : forall word gap name, In word ["\newboolean"; "\renewboolean"]%string -> blank gap -> name <> [] -> ~ In c_rb name -> skipped (lit word ++ gap ++ braced name)
| s_columntype : forall word gap name g1 body, In word ["\newcolumntype"; "\renewcolumntype"]%string -> blank gap -> ~ In c_rb name -> blank g1 -> good_body body ->
    skipped (lit word ++ gap ++ braced name ++ g1 ++ braced body).

(** ** Definitions of commands *)
Definition def_words : list string := ["\def"; "\edef"; "\gdef"; "\xdef"; "\long\def"; "\long\edef"; "\long\gdef"; "\long\xdef"]%string.
(** \edef is recorded as such *)
Definition expanding (word : string) : bool := existsb (String.eqb word) ["\edef"; "\long\edef"]%string.
(** what a use of a command looks like, as the text of a regular expression: the name and no letter or @ behind it, *)
Definition name_over_text : str := lit "(?![a-zA-Z@])".
(** and then the arguments: a group, with one level of groups inside, or else as little as possible *)
Definition argument_text : str := lit "\s*(?:\{((?:[^{}]|\\\{|\\\}|{[^{}]*})*)\}|([^\}]+?))".
Definition behind_name (k : nat) : str := name_over_text ++ concat (repeat argument_text k).
(** one backslash is written as two *)
Definition use_text (name : str) (k : nat) : str := lit "\\" ++ name ++ behind_name k.
Definition use_csname_text (raw : str) (k : nat) : str := lit "\\csname" ++ raw ++ lit "\\endcsname" ++ behind_name k.
Definition blanks_only (s : str) : Prop := forall x, In x s -> x = 32%N.
(** command names that the reader of definitions does not take for something else *)
Definition plain_name (name : str) : Prop := word name /\ forall s q, In s ["expandafter"; "noexpand"; "csname"]%string -> name <> lit s ++ q.
(** what \def takes for a name: letters and @ *)
Definition command_word (name : str) : Prop := name <> [] /\ Forall word_char name.
Definition def_name (name : str) : Prop := command_word name /\ forall s q, In s ["expandafter"; "noexpand"; "csname"]%string -> name <> lit s ++ q.
Definition csname_text (raw : str) : str := lit "\csname" ++ raw ++ lit "\endcsname".
(** a name inside \csname...\endcsname: spaces, the name, spaces *)
Inductive csname_of (name : str) : str -> Prop := cs_intro : forall g1 g2, blanks_only g1 -> g1 <> [] -> blanks_only g2 -> word name -> csname_of name (g1 ++ name ++ g2).
(** commands that define a math alphabet, and the number of their arguments *)
Definition alphabet_words : list (string * nat) := [("\DeclareMathAlphabet", 5); ("\DeclareSymbolFontAlphabet", 2)]%string.
