(** What a BibTeX file says, independent of the parser. *)
From Coq Require Import List NArith ZArith PeanoNat Bool String.
From Verif Require Import PyStr DelimSpec KeyvalModel BibModel.
Import ListNotations. Notation length := List.length. Notation concat := List.concat. Open Scope list_scope.

(** Word characters: the only facts used about \w. *)
Definition word_class (isword : ch -> bool) : Prop :=
  forall x, isword x = true -> isspace x = false /\ ~ In x (lit "=,@{}\") /\ x <> c_quote.
Definition word (isword : ch -> bool) (s : str) : Prop := s <> [] /\ forallb isword s = true.
Definition separators (s : str) : Prop := forallb sep_char s = true.

(** [field_list text fs]: [text] is a sequence of [name = {value}] or
    [name = "value"], separated by blanks and commas; a braced value counts without
    the blanks around it. *)
Inductive field_list (isword : ch -> bool) : str -> list (str * str) -> Prop :=
| fl_nil : field_list isword [] []
| fl_brace : forall name w1 w2 v sep rest fs,
    word isword name -> blank w1 -> blank w2 -> balanced c_lb c_rb (marks v) -> closes_after v -> separators sep ->
    field_list isword rest fs ->
    field_list isword (name ++ w1 ++ [c_eq] ++ w2 ++ [c_lb] ++ v ++ [c_rb] ++ sep ++ rest) ((name, strip v) :: fs)
| fl_quote : forall name w1 w2 v sep rest fs,
    word isword name -> blank w1 -> blank w2 -> ~ In c_quote v -> separators sep ->
    field_list isword rest fs ->
    field_list isword (name ++ w1 ++ [c_eq] ++ w2 ++ [c_quote] ++ v ++ [c_quote] ++ sep ++ rest) ((name, v) :: fs).

(** The dictionary of a list of fields: a later field with the same (lower case)
    name replaces the value of the earlier one. *)
Definition fields_dict (lower : str -> str) (fs : list (str * str)) : list (str * str) :=
  fold_left (fun d kv => sset (lower (fst kv)) (snd kv) d) fs [].

(** [bib_file text es]: entries [@type {key, fields}] with text without "@" around
    and inside them. *)
Inductive bib_file (isword : ch -> bool) : str -> list (str * str * list (str * str)) -> Prop :=
| bf_end : forall s, ~ In c_at s -> bib_file isword s []
| bf_entry : forall junk ty ws key body fs rest es,
    ~ In c_at junk -> word isword ty -> blank ws ->
    ~ In c_comma key -> ~ In c_at key -> ~ In c_at body ->
    balanced c_lb c_rb (marks (key ++ [c_comma] ++ body)) -> closes_after (key ++ [c_comma] ++ body) ->
    field_list isword (strip body) fs ->
    bib_file isword rest es ->
    bib_file isword (junk ++ [c_at] ++ ty ++ ws ++ [c_lb] ++ key ++ [c_comma] ++ body ++ [c_rb] ++ rest) ((ty, strip key, fs) :: es).
