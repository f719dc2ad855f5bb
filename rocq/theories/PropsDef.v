(** C102-C105: definitions (new_definition.py).  [handle u ualpha ualnum text] is
    NewDefinitionHandler.handle: the token and the position behind the definition, an exception (Raise)
    or no end (Spin); [u], [ualpha], [ualnum] tell which characters beyond ASCII are word characters,
    letters, alphanumeric.  The ways of writing a declaration are in DefSpec.v. *)
From Coq Require Import List NArith ZArith PeanoNat Lia Bool String.
From Verif Require Import PyStr RegexLocal DelimSpec CommandSpec CommandCases DefModel DefSpec DefProofs DefProofs2 DefProofs7 DefProofs8 DefProofs11 DefProofs12 DefProofs13 DefProofs14 DefCases.
Import ListNotations. Notation length := List.length. Open Scope list_scope.

(** C102: the handler always comes to an end; the position is within the text, and behind its beginning
    if there is a token; *)
Theorem C102_total : forall u ualpha ualnum text, handle u ualpha ualnum text <> Spin /\
  forall tok e, handle u ualpha ualnum text = Ok (tok, e) -> (e <= Z.of_nat (length text))%Z /\ (tok <> None -> (0 < e)%Z) /\ (~ occurs (lit "\@namedef") text -> (0 <= e)%Z).
Proof. exact handle_ok. Qed.
Print Assumptions C102_total.
(** it raises no exception for a text without the character #, *)
Theorem C102_no_exception : forall u ualpha ualnum text, handle u ualpha ualnum text = Raise -> In c_hash text.
Proof. exact handle_raise. Qed.
Print Assumptions C102_no_exception.
(** and it leaves a text that does not begin with a backslash, or that it does not accept, alone. *)
Theorem C102_no_command : forall u ualpha ualnum text, (forall r, text <> c_bs :: r) -> can_handle u text = false /\ handle u ualpha ualnum text = Ok (None, 0%Z).
Proof. exact no_command. Qed.
Print Assumptions C102_no_command.
Theorem C102_not_accepted : forall u ualpha ualnum text, can_handle u text = false -> handle u ualpha ualnum text = Ok (None, 0%Z).
Proof. exact not_can. Qed.
Print Assumptions C102_not_accepted.
Example C102_case : forall u ualpha ualnum, handle u ualpha ualnum (lit "\newif\ifdraft text") = Ok (Some (DIf (lit "draft")), 14%Z) /\ can_handle u (lit "plain text") = false /\ ~ occurs (lit "\@namedef") (lit "\newif").
Proof. intros. split; [vm_compute; reflexivity|]. split; [vm_compute; reflexivity|]. apply TableCases.not_occurs. vm_compute. reflexivity. Qed.
(** The position can lie before the text: \@namedef without a body. *)
Theorem C102_negative_refuted : forall u ualpha ualnum, handle u ualpha ualnum (lit "\@namedef{foo}") = Ok (None, (-13)%Z).
Proof. exact namedef_negative. Qed.
Print Assumptions C102_negative_refuted.
(** An exception is possible. *)
Theorem C102_raise_refuted : forall u ualpha ualnum, handle u ualpha ualnum (lit "\def\\#1{x}") = Raise.
Proof. exact hash_name_raises. Qed.
Print Assumptions C102_raise_refuted.

(** C103: a declaration written in one of the ways of DefSpec.v is recorded with the names and texts that
    it has, whatever follows it, and exactly its own text is used up; *)
Theorem C103_declared : forall u ualpha ualnum source tok follow rest, declares source tok follow -> follow rest -> handle u ualpha ualnum (source ++ rest) = Ok (Some tok, Z.of_nat (length source)).
Proof. exact declares_ok. Qed.
Print Assumptions C103_declared.
(** \newboolean and \newcolumntype are used up without a token. *)
Theorem C103_skipped : forall u ualpha ualnum source rest, skipped source -> handle u ualpha ualnum (source ++ rest) = Ok (None, Z.of_nat (length source)).
Proof. exact skipped_ok. Qed.
Print Assumptions C103_skipped.
Example C103_case : declares (lit "\newtheorem" ++ lit "*" ++ braced (lit "thm") ++ optional (Some (lit "lem")) ++ braced (lit "Theorem") ++ optional None) (DTheorem (lit "thm") (lit "Theorem") (Some (lit "lem")) None) (fun rest => @None str = None -> not_next c_lk rest) /\
  not_next c_lk (lit " [section]") /\
  declares (lit "\definecolor" ++ lit " " ++ braced (lit "mygray") ++ [] ++ braced (lit "rgb") ++ lit " " ++ braced (lit "0.5,{0.5},0.5")) (DColor (lit "mygray") (lit "rgb") (lit "0.5,{0.5},0.5")) (fun _ => True) /\
  declares (lit "\font" ++ lit " " ++ [c_bs] ++ lit "myfont" ++ lit " " ++ lit "=" ++ [] ++ lit "cmr10" ++ size_text (lit " ") (lit " ") (lit "12" ++ lit "." ++ lit "5") (lit "pt")) (DFont (lit "myfont") (lit "cmr10") (Some (lit "12.5", lit "pt"))) (fun _ => True) /\
  skipped (lit "\newcolumntype" ++ [] ++ braced (lit "C") ++ lit " " ++ braced (lit ">{\centering}p{2cm}")).
Proof.
  repeat split.
  - apply d_theorem; [right; left; reflexivity| | |intros s [E|E]; [injection E as <-|discriminate]]; cbn; intuition discriminate.
  - intros r E. discriminate.
  - apply d_color; try reflexivity; apply closed_grp; reflexivity.
  - apply d_font_size; try reflexivity; try discriminate; try (split; [discriminate|]; intros x I; cbn in I; repeat (destruct I as [<-|I]; [split; [reflexivity|cbn; intuition discriminate]|]); destruct I).
    + apply (sn_dec (lit "12") (lit "5")); split; [discriminate|reflexivity|discriminate|reflexivity].
    + left. reflexivity.
  - apply s_columntype; try reflexivity; [left; reflexivity|cbn; intuition discriminate|apply closed_grp; reflexivity].
Qed.
(** A title with a group inside is cut at the first closing brace. *)
Theorem C103_title_refuted : forall u ualpha ualnum, handle u ualpha ualnum (lit "\newtheorem{t}{{\bf T}}") = Ok (Some (DTheorem (lit "t") (lit "{\bf T") None None), 22%Z).
Proof. exact title_truncated. Qed.
Print Assumptions C103_title_refuted.
(** A blank before the arguments: \newtheorem is not read, *)
Theorem C103_theorem_blank_refuted : forall u ualpha ualnum, handle u ualpha ualnum (lit "\newtheorem {thm}{Theorem}") = Ok (None, 0%Z).
Proof. exact theorem_blank. Qed.
Print Assumptions C103_theorem_blank_refuted.
(** \newlength records a wrong name or none at all, *)
Theorem C103_length_blank_refuted : forall u ualpha ualnum, handle u ualpha ualnum (lit "\newlength \foo") = Ok (Some (DLength (lit " \foo")), 15%Z) /\ handle u ualpha ualnum (lit "\newlength {\foo}") = Ok (None, 17%Z).
Proof. exact length_blank. Qed.
Print Assumptions C103_length_blank_refuted.
(** \setlength a wrong name. *)
Theorem C103_setlength_blank_refuted : forall u ualpha ualnum, handle u ualpha ualnum (lit "\setlength\foo {2pt}") = Ok (Some (DLength (lit "foo ")), 20%Z).
Proof. exact setlength_blank. Qed.
Print Assumptions C103_setlength_blank_refuted.
(** \newcount takes the text that follows the name as a part of it. *)
Theorem C103_register_refuted : forall u ualpha ualnum, handle u ualpha ualnum (lit "\newcount\foo\foo=3 text") = Ok (Some (DOther (lit "foo\foo=3")), 19%Z).
Proof. exact register_swallows. Qed.
Print Assumptions C103_register_refuted.

(** C104: names that are built.  \expandafter and \noexpand change nothing about the definition behind
    them but the position, whatever it is, unless a word character or a blank follows them; *)
Theorem C104_expand : forall u ualpha ualnum word rest, In word ["\expandafter"; "\noexpand"]%string ->
  (match rest with x :: _ => w u x | [] => false end) = false ->
  handle u ualpha ualnum (lit word ++ rest) = match handle u ualpha ualnum rest with
    | Ok (tok, e) => Ok (tok, (Z.of_nat (length (lit word)) + e)%Z) | Raise => Raise | Spin => Spin end.
Proof. exact expand_ok. Qed.
Print Assumptions C104_expand.
(** \def and its relatives with \csname name\endcsname define the command of that name: both \name and
    \csname name\endcsname are uses of it; *)
Theorem C104_csname : forall u ualpha ualnum keyword gap g1 name g2 gap2 k body rest, In keyword def_words -> blank gap -> blank gap2 ->
  word name -> blanks_only g1 -> g1 <> [] -> blanks_only g2 -> good_body body ->
  let src := lit keyword ++ gap ++ lit "\csname" ++ g1 ++ name ++ g2 ++ lit "\endcsname" ++ gap2 ++ param_text k ++ braced body in
  handle u ualpha ualnum (src ++ rest) =
    Ok (Some (DDef name body k (use_text name k ++ lit "|" ++ use_csname_text (g1 ++ name ++ g2) k) (expanding keyword)), Z.of_nat (length src)).
Proof. exact csname_ok. Qed.
Print Assumptions C104_csname.
(** so does \@namedef with the name in braces, *)
Theorem C104_namedef : forall u ualpha ualnum ws name gap2 k body rest, blank ws -> blank gap2 -> word name -> good_body body ->
  let src := lit "\@namedef" ++ ws ++ braced name ++ gap2 ++ param_text k ++ braced body in
  handle u ualpha ualnum (src ++ rest) =
    Ok (Some (DDef name body k (use_text name k ++ lit "|" ++ use_csname_text (lit " " ++ name ++ lit " ") k) false), Z.of_nat (length src)).
Proof. exact namedef_ok. Qed.
Print Assumptions C104_namedef.
(** and \let, with the old command behind = or built likewise. *)
Theorem C104_let : forall u ualpha ualnum gap name raw old rest, blank gap -> csname_of name raw -> word old -> let_stop rest ->
  let src := lit "\let" ++ gap ++ csname_text raw ++ lit "=" ++ [c_bs] ++ old in
  handle u ualpha ualnum (src ++ rest) = Ok (Some (DLet name ([c_bs] ++ old) (use_text name 0 ++ lit "|" ++ use_csname_text raw 0)), Z.of_nat (length src)).
Proof. exact let_csname_ok. Qed.
Print Assumptions C104_let.
Theorem C104_let_both : forall u ualpha ualnum gap name raw old raw2 rest, blank gap -> csname_of name raw -> csname_of old raw2 -> let_stop rest -> rest <> [] ->
  let src := lit "\let" ++ gap ++ csname_text raw ++ csname_text raw2 in
  handle u ualpha ualnum (src ++ rest) = Ok (Some (DLet name ([c_bs] ++ old) (use_text name 0 ++ lit "|" ++ use_csname_text raw 0)), Z.of_nat (length src)).
Proof. exact let_csnames_ok. Qed.
Print Assumptions C104_let_both.
Example C104_case : In "\long\def"%string def_words /\ word (lit "foo") /\ blanks_only (lit " ") /\ good_body (lit "a {#1} b") /\ csname_of (lit "foo") (lit "  foo ") /\ let_stop (lit " x") /\
  (forall u ualpha ualnum, handle u ualpha ualnum (lit "\expandafter\def\csname foo\endcsname#1{a {#1} b} x") =
    Ok (Some (DDef (lit "foo") (lit "a {#1} b") 1 (use_text (lit "foo") 1 ++ lit "|" ++ use_csname_text (lit " foo") 1) false), 49%Z)).
Proof.
  pose proof word_foo as W.
  assert (B : forall n, blanks_only (repeat 32%N n)) by (intros n x I; apply repeat_spec in I; exact I).
  split; [cbn; tauto|]. split; [exact W|]. split; [exact (B 1)|]. split; [apply closed_grp; reflexivity|].
  split; [apply (cs_intro (lit "foo") (repeat 32%N 2) (repeat 32%N 1)); [apply B|discriminate|apply B|exact W]|]. split; [left; reflexivity|]. intros. vm_compute. reflexivity.
Qed.
(** A built name and an old command without =: the definition is lost, *)
Theorem C104_let_refuted : forall u ualpha ualnum r, r = lit " x" \/ r = [] -> handle u ualpha ualnum (lit "\let\csname a\endcsname\bar" ++ r) = Ok (None, 0%Z).
Proof. exact let_lost. Qed.
Print Assumptions C104_let_refuted.
(** as it is when both names are built and the text ends there; *)
Theorem C104_let_end_refuted : forall u ualpha ualnum, handle u ualpha ualnum (lit "\let\csname a\endcsname\csname b\endcsname") = Ok (None, 0%Z).
Proof. exact let_end_lost. Qed.
Print Assumptions C104_let_end_refuted.
(** a delimiter behind \endcsname becomes a part of the name; *)
Theorem C104_delimiter_refuted : forall u ualpha ualnum, exists us, handle u ualpha ualnum (lit "\def\csname a\endcsname\bar{x}") = Ok (Some (DDef (lit "abar") (lit "x") 0 us false), 30%Z).
Proof. exact def_glued. Qed.
Print Assumptions C104_delimiter_refuted.
(** the name is copied into the second regular expression as it is, so that + repeats the letter before it; *)
Theorem C104_escape_refuted : forall u ualpha ualnum, handle u ualpha ualnum (lit "\def\csname a+b\endcsname{x}") = Ok (Some (DDef (lit "a+b") (lit "x") 0 (lit "\\a\+b(?![a-zA-Z@])|\\csname a+b\\endcsname") false), 28%Z).
Proof. exact raw_regex. Qed.
Print Assumptions C104_escape_refuted.
(** a blank behind \expandafter: the definition is not read. *)
Theorem C104_blank_refuted : forall u ualpha ualnum, handle u ualpha ualnum (lit "\expandafter \def\foo{x}") = Ok (None, 12%Z).
Proof. exact expand_blank. Qed.
Print Assumptions C104_blank_refuted.

(** C105: the definitions of commands.  \def, \edef, \gdef, \xdef, also behind \long: the name, the body
    without its braces, the number of parameters, and how a use looks; *)
Theorem C105_def : forall u ualpha ualnum keyword gap name gap2 k body rest, In keyword def_words -> blank gap -> blank gap2 -> def_name name -> good_body body ->
  let src := lit keyword ++ gap ++ [c_bs] ++ name ++ gap2 ++ param_text k ++ braced body in
  handle u ualpha ualnum (src ++ rest) = Ok (Some (DDef name body k (use_text name k) (expanding keyword)), Z.of_nat (length src)).
Proof. exact plain_ok. Qed.
Print Assumptions C105_def.
(** \newcommand and its relatives as CommandSpec.v writes them; *)
Theorem C105_newcommand : forall u ualpha ualnum d rest, well_written d ->
  handle u ualpha ualnum (macro_text d ++ rest) =
    Ok (Some (DCommand (mc_name d) (mc_body d) (arity d) (default_values d) (use_text (mc_name d) 0) (math_only d)), Z.of_nat (length (macro_text d))).
Proof. exact newcommand_ok. Qed.
Print Assumptions C105_newcommand.
(** \let; *)
Theorem C105_let : forall u ualpha ualnum gap name eq old rest, blank gap -> plain_name name -> word old -> let_stop rest ->
  handle u ualpha ualnum (let_text gap name eq old ++ rest) = Ok (Some (DLet name ([c_bs] ++ old) (use_text name 0)), Z.of_nat (length (let_text gap name eq old))).
Proof. exact let_ok. Qed.
Print Assumptions C105_let.
(** the math alphabets: a command with one argument that it repeats, for math only. *)
Theorem C105_alphabet : forall u ualpha ualnum keyword n gap name others rest e, In (keyword, n) alphabet_words -> blank gap -> word name -> length others + 1 = n ->
  groups_at c_lb c_rb (braced ([c_bs] ++ name) ++ rest) (([c_bs] ++ name) :: others) e ->
  handle u ualpha ualnum (lit keyword ++ gap ++ braced ([c_bs] ++ name) ++ rest) =
    Ok (Some (DCommand name (lit "#1") 1 [] (use_text name 0) true), Z.of_nat (length (lit keyword ++ gap) + e)).
Proof. exact alphabet_ok. Qed.
Print Assumptions C105_alphabet.
Example C105_case : plain_name (lit "foo") /\ def_name (lit "foo@") /\ In "\xdef"%string def_words /\ good_body (lit "x {y}") /\
  (forall u ualpha ualnum, handle u ualpha ualnum (lit "\DeclareSymbolFontAlphabet{\mathfoo} {letters} x") = Ok (Some (DCommand (lit "mathfoo") (lit "#1") 1 [] (use_text (lit "mathfoo") 0) true), 46%Z)) /\
  groups_at c_lb c_rb (braced ([c_bs] ++ lit "mathfoo") ++ lit " {letters} x") [[c_bs] ++ lit "mathfoo"; lit "letters"] 20.
Proof.
  pose proof word_foo as W.
  split; [split; [exact W|]; intros s q I; cbn in I; destruct I as [<-|[<-|[<-|[]]]]; discriminate|]. split; [split; [split; [discriminate|]|intros s q I; cbn in I; destruct I as [<-|[<-|[<-|[]]]]; discriminate]; apply Forall_forall; intros x I; cbn in I; repeat (destruct I as [<-|I]; [first [right; reflexivity|left; unfold is_letter; lia]|]); destruct I|]. split; [cbn; tauto|]. split; [apply closed_grp; reflexivity|]. split; [intros; vm_compute; reflexivity|].
  apply (ga_cons c_lb c_rb _ ([c_bs] ++ lit "mathfoo") 10 [lit "letters"] 10); [exists [], (lit " {letters} x")|apply (ga_cons c_lb c_rb _ (lit "letters") 10 [] 0); [exists (lit " "), (lit " x")|apply ga_nil]].
  all: split; [reflexivity|]; split; [reflexivity|]; split; [|split; [|reflexivity]]; apply closed_grp; vm_compute; reflexivity.
Qed.
(** A command whose name begins with one of the words of C104 is not defined. *)
Theorem C105_name_refuted : forall u ualpha ualnum, handle u ualpha ualnum (lit "\def\noexpandable{x}") = Ok (None, 0%Z).
Proof. exact noexpandable. Qed.
Print Assumptions C105_name_refuted.
