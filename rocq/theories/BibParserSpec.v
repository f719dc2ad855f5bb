(** Vocabulary for C94-C95. *)
From Coq Require Import List NArith PeanoNat Bool String.
From Verif Require Import ExtractModel PyStr DelimSpec RegexLocal BibSpec.
Import ListNotations. Notation length := List.length. Notation concat := List.concat. Open Scope list_scope.

(** the three formats, by what the text contains *)
Definition bibdiv_text (t : str) : Prop := exists p ws q, blank ws /\ t = p ++ lit "\begin" ++ ws ++ lit "{bibdiv}" ++ q.
Definition at_entry (isword : ch -> bool) (t : str) : Prop := exists p ty ws q, word isword ty /\ blank ws /\ t = p ++ lit "@" ++ ty ++ ws ++ lit "{" ++ q.
Definition compiled_text (t : str) : Prop := exists p a q, t = p ++ lit "\entry{" ++ a ++ lit "\endentry" ++ q.

(** [in_directory path d]: the directory part of a path *)
Inductive in_directory : str -> str -> Prop :=
| dir_none : forall base, ~ In c_slash base -> in_directory base []
| dir_some : forall d x base, ~ In c_slash base -> x <> c_slash -> in_directory ((d ++ [x]) ++ [c_slash] ++ base) (d ++ [x]).
Definition in_dir (d name : str) : str := match d with [] => name | _ => d ++ [c_slash] ++ name end.
Definition has_ext (e path : str) : Prop := exists b, path = b ++ e.

Section Source.
Variable files : str -> option str.
(** the file of that name: the name as it is if it has one of the extensions, otherwise with .bbl, otherwise with .bib *)
Inductive named (path : str) : str -> Prop :=
| na_self : forall c, has_ext (lit ".bbl") path \/ has_ext (lit ".bib") path -> files path = Some c -> named path c
| na_bbl : forall c, files path = None \/ (~ has_ext (lit ".bbl") path /\ ~ has_ext (lit ".bib") path) -> files (path ++ lit ".bbl") = Some c -> named path c
| na_bib : forall c, files path = None \/ (~ has_ext (lit ".bbl") path /\ ~ has_ext (lit ".bib") path) -> files (path ++ lit ".bbl") = None -> files (path ++ lit ".bib") = Some c -> named path c.
(** none, or an empty one *)
Definition nothing_named (path : str) : Prop := forall c, named path c -> c = [].
End Source.
