(** Vocabulary for C93: bibliographies written with \bib (amsrefs). *)
From Coq Require Import List NArith PeanoNat Bool String.
From Verif Require Import PyStr DelimSpec CommandSpec ItemSpec KeyvalModel BibModel BibSpec.
Import ListNotations. Notation length := List.length. Notation concat := List.concat. Open Scope list_scope.

(** A value with groups that are not nested, and the value without its braces. *)
Definition brace (x : ch) : bool := N.eqb x c_lb || N.eqb x c_rb.
Definition braceless (s : str) : Prop := forallb (fun x => negb (brace x)) s = true.
Definition no_braces (s : str) : str := filter (fun x => negb (brace x)) s.
Inductive flat : str -> Prop :=
| fl_nil : flat []
| fl_char : forall x r, brace x = false -> flat r -> flat (x :: r)
| fl_group : forall g r, braceless g -> flat r -> flat (c_lb :: g ++ c_rb :: r).

(** [fields_text text fs]: fields name = {value} or name = value, separated by commas and blanks. *)
Inductive fields_text (isword : ch -> bool) : str -> list (str * str) -> Prop :=
| ft_end : forall sep, separators sep -> fields_text isword sep []
| ft_brace : forall sep name w1 w2 v rest fs, separators sep -> word isword name -> blank w1 -> blank w2 -> good_body v -> flat v -> fields_text isword rest fs ->
    fields_text isword (sep ++ name ++ w1 ++ [c_eq] ++ w2 ++ [c_lb] ++ v ++ [c_rb] ++ rest) ((name, strip (no_braces v)) :: fs)
| ft_bare : forall sep name w1 w2 v rest fs, separators sep -> word isword name -> blank w1 -> blank w2 -> ~ In c_comma v -> starts_with isspace v = false -> starts_with (N.eqb c_lb) v = false -> flat (strip v) -> fields_text isword rest fs ->
    fields_text isword (sep ++ name ++ w1 ++ [c_eq] ++ w2 ++ v ++ [c_comma] ++ rest) ((name, no_braces (strip v)) :: fs)
| ft_last : forall sep name w1 w2 v, separators sep -> word isword name -> blank w1 -> blank w2 -> ~ In c_comma v -> starts_with isspace v = false -> starts_with (N.eqb c_lb) v = false -> flat (strip v) ->
    fields_text isword (sep ++ name ++ w1 ++ [c_eq] ++ w2 ++ v) [(name, no_braces (strip v))].
(** The dictionary: one field for each name (in lower case), in the order of their first
    occurrences; several values are joined by and. *)
Fixpoint firsts (l : list str) : list str := match l with [] => [] | k :: r => k :: filter (fun k' => negb (str_eqb k k')) (firsts r) end.
Definition merged (lower : str -> str) (fs : list (str * str)) : list (str * str) :=
  map (fun k => (k, join (lit " and ") (map snd (filter (fun kv => str_eqb k (lower (fst kv))) fs)))) (firsts (map (fun kv => lower (fst kv)) fs)).

(** text in which no \bib{ starts *)
Definition quiet (s : str) : Prop := forall p ws q, blank ws -> s <> p ++ lit "\bib" ++ ws ++ [c_lb] ++ q.
(** [bib_list text es]: \bib{key}{type}{fields} *)
Inductive bib_list (isword : ch -> bool) : str -> list (str * str * list (str * str)) -> Prop :=
| bl_end : forall s, quiet s -> bib_list isword s []
| bl_entry : forall junk w1 key w2 ty w3 body fs rest es, quiet junk -> blank w1 -> key <> [] -> ~ In c_rb key -> blank w2 -> ty <> [] -> ~ In c_rb ty -> blank w3 ->
    good_body body -> body <> [] -> quiet body -> fields_text isword body fs -> bib_list isword rest es ->
    bib_list isword (junk ++ lit "\bib" ++ w1 ++ [c_lb] ++ key ++ [c_rb] ++ w2 ++ [c_lb] ++ ty ++ [c_rb] ++ w3 ++ [c_lb] ++ body ++ [c_rb] ++ rest) ((ty, key, fs) :: es).
Definition bib_entry_of (lower : str -> str) (e : str * str * list (str * str)) : bibtex_entry :=
  let '(ty, key, fs) := e in {| bx_type := ty; bx_key := key; bx_fields := merged lower fs; bx_content := convert_fields ty key (merged lower fs) |}.
