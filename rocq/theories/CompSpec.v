(** Vocabulary for C108-C109: a compiled bibliography (the .bbl file of biber) and the BibTeX text made of it. *)
From Coq Require Import List NArith ZArith PeanoNat Bool String.
From Verif Require Import PyStr RegexLocal DelimSpec CommandSpec ItemSpec KeyvalModel BibSpec BibitemSpec.
Import ListNotations. Notation length := List.length. Notation concat := List.concat. Open Scope list_scope.

Section Compiled.
Variable isword : ch -> bool.
(** ** Abbreviations: \bibinitperiod is a period, \bibrangedash a dash; the blanks between a dash and the word
    behind it are dropped *)
Inductive dashed : str -> str -> Prop :=
| da_nil : dashed [] []
| da_blank : forall ws r out, blank ws -> ws <> [] -> starts_with isword r = true -> dashed r out -> dashed (lit "\bibrangedash" ++ ws ++ r) (lit "--" ++ out)
| da_dash : forall r out, starts_with isword r = false -> (forall ws q, r = ws ++ q -> blank ws -> starts_with isword q = false) -> dashed r out -> dashed (lit "\bibrangedash" ++ r) (lit "--" ++ out)
| da_other : forall x r out, (forall q, x :: r = lit "\bibrangedash" ++ q -> starts_with isword q = true) -> dashed r out -> dashed (x :: r) (x :: out).
Definition expanded (raw text : str) : Prop := exists mid, replaced isword (lit "\bibinitperiod") (lit ".") raw mid /\ dashed mid text.

(** ** One author block: family={F} ... given={G} ..., the names in any order *)
Definition has_part (word : string) (block value : str) : Prop := exists a b,
  block = a ++ lit word ++ lit "={" ++ value ++ [c_rb] ++ b /\ ~ occurs (lit word ++ lit "={") a /\ value <> [] /\ good_body value.
Definition is_person (block family given : str) : Prop := has_part "family" block family /\ has_part "given" block given.
(** the author blocks {hash=...}{...} *)
Inductive names_list : str -> list (str * str) -> Prop :=
| nl_end : forall junk, ~ occurs (lit "{hash=") junk -> names_list junk []
| nl_person : forall junk hash block family given rest ps, ~ occurs (lit "{hash=") junk -> word isword hash -> good_body block -> ~ occurs (lit "{hash=") block ->
    is_person block family given -> names_list rest ps ->
    names_list (junk ++ lit "{hash=" ++ hash ++ lit "}{" ++ block ++ [c_rb] ++ rest) ((family, given) :: ps).
(** the authors of an entry: the third group behind \name{author} *)
Definition authors_in (text : str) (ps : list (str * str)) : Prop :=
  (~ occurs (lit "\name{author}") text /\ ps = []) \/
  exists a b count options block n, text = a ++ lit "\name{author}" ++ b /\ ~ occurs (lit "\name{author}") a /\
    groups_at c_lb c_rb b [count; options; block] n /\ names_list block ps.
(** ** The fields \field{name}{value} *)
Inductive fields_in : str -> list (str * str) -> Prop :=
| fi_end : forall junk, ~ occurs (lit "\field{") junk -> fields_in junk []
| fi_field : forall junk name value rest fs, ~ occurs (lit "\field{") junk -> name <> [] -> ~ In c_lb name -> ~ In c_rb name -> ~ In c_bs name -> good_body value -> ~ occurs (lit "\field{") value ->
    fields_in rest fs -> fields_in (junk ++ lit "\field{" ++ name ++ lit "}{" ++ value ++ [c_rb] ++ rest) ((name, value) :: fs).
(** ** The eprint number *)
Definition eprint_in (text : str) (e : option str) : Prop :=
  (~ occurs (lit "\verb{eprint}") text /\ e = None) \/
  exists a b ws ws1 ws2 v, text = a ++ lit "\verb{eprint}" ++ ws ++ lit "\verb" ++ ws1 ++ v ++ ws2 ++ lit "\endverb" ++ b /\ ~ occurs (lit "\verb{eprint}") a /\
    blank ws /\ blank ws1 /\ ws1 <> [] /\ blank ws2 /\ ws2 <> [] /\ v <> [] /\ strip v = v /\ ~ occurs (lit "\endverb") v /\ e = Some v.

Record compiled := { c_key : str; c_type : str; c_people : list (str * str); c_fields : list (str * str); c_eprint : option str }.
(** what the text of an entry says *)
Definition says (text : str) (c : compiled) : Prop :=
  (exists key ty options body, text = lit "\entry{" ++ key ++ lit "}{" ++ ty ++ lit "}{" ++ options ++ [c_rb] ++ body /\
     key <> [] /\ ty <> [] /\ ~ In c_rb key /\ ~ In c_rb ty /\ ~ In c_rb options /\ c_key c = strip key /\ c_type c = strip ty) /\
  authors_in text (c_people c) /\ fields_in text (c_fields c) /\ eprint_in text (c_eprint c).

(** ** What becomes of it *)
(** an author is printed as family name, comma, first letter of the given name, period *)
Definition printed (p : str * str) : str := fst p ++ lit ", " ++ firstn 1 (snd p) ++ lit ".".
Fixpoint with_and (l : list str) : str := match l with [] => [] | [a] => a | a :: l => a ++ lit " and " ++ with_and l end.
(** fields that are not printed, fields that get another name *)
Definition kept_field (kv : str * str) : list (str * str) :=
  let k := strip (fst kv) in
  if str_eqb k (lit "labelnamesource") || str_eqb k (lit "labeltitlesource") then []
  else [(if str_eqb k (lit "journaltitle") then lit "journal" else k, strip (snd kv))].
Definition all_fields (c : compiled) : list (str * str) :=
  match c_people c with [] => [] | ps => [(lit "author", with_and (map printed ps))] end ++
  flat_map kept_field (c_fields c) ++
  match c_eprint c with Some e => [(lit "eprint", e)] | None => [] end.
(** a later field replaces the value of an earlier one with the same name *)
Definition the_fields (c : compiled) : list (str * str) := fields_dict (fun k => k) (all_fields c).
(** author, title, year, eprint, eprinttype, eprintclass, then the others in their order *)
Definition first_names : list str := [lit "author"; lit "title"; lit "year"; lit "eprint"; lit "eprinttype"; lit "eprintclass"].
Definition arranged (fs : list (str * str)) : list (str * str) :=
  flat_map (fun k => filter (fun kv => str_eqb k (fst kv)) fs) first_names ++ filter (fun kv => negb (existsb (str_eqb (fst kv)) first_names)) fs.
Definition bib_text (ty key : str) (fs : list (str * str)) : str :=
  lit "@" ++ ty ++ lit "{" ++ key ++ lit "," ++ [10%N] ++ concat (map (fun kv => lit "  " ++ fst kv ++ lit " = {" ++ snd kv ++ lit "}," ++ [10%N]) fs) ++ lit "}".
(** no field is called key or type *)
Definition no_clash (c : compiled) : Prop := forall k v, In (k, v) (all_fields c) -> k <> lit "key" /\ k <> lit "type".

(** the entries of a file *)
Inductive compiled_file : str -> list compiled -> Prop :=
| cf_end : forall junk, ~ occurs (lit "\entry{") junk -> compiled_file junk []
| cf_entry : forall junk body text c rest cs, ~ occurs (lit "\entry{") junk -> ~ occurs (lit "\endentry") body ->
    expanded (lit "\entry{" ++ body ++ lit "\endentry") text -> says text c -> compiled_file rest cs ->
    compiled_file (junk ++ lit "\entry{" ++ body ++ lit "\endentry" ++ rest) (c :: cs).
End Compiled.
(** ** Text that the BibTeX reader takes in: the type a word, the key without comma and @, fields whose names are
    words and whose values are closed *)
Section Readable.
Variable isword : ch -> bool.
Definition readable_field (kv : str * str) : Prop := word isword (fst kv) /\ good_body (snd kv) /\ ~ In 64%N (snd kv).
Definition readable (c : compiled) : Prop :=
  word isword (c_type c) /\ ~ In c_comma (c_key c) /\ ~ In 64%N (c_key c) /\ balanced c_lb c_rb (marks (c_key c)) /\ Forall readable_field (all_fields c).
End Readable.
(** the reference read from the printed entry: names and type in lower case, values without the blanks around them *)
Definition reference (lower : str -> str) (c : compiled) : str * str * list (str * str) :=
  (lower (c_type c), strip (c_key c), fields_dict lower (map (fun kv => (fst kv, strip (snd kv))) (arranged (the_fields c)))).
