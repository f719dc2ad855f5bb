(** Model of latex2json/parser/bib/bib_parser.py (BibParser.parse and parse_file). *)
From Coq Require Import List NArith PeanoNat Bool String.
From Verif Require TokensModel.
From Verif Require Import ExtractModel PyStr Regex TexUtilsModel TextModel BibModel BibdivModel BibitemModel.
Import ListNotations. Notation length := List.length. Notation concat := List.concat. Open Scope list_scope.

Inductive entry := ETex (e : bibtex_entry) | EItem (e : bibitem).
(** bib_parser.py:19-23 *)
Definition preprocess (content : str) : str := strip (normalize_whitespace_and_lines (strip_latex_comments content)).

Section BibParser.
Variable isword : ch -> bool.
Variable lower : str -> str.
(** compiled_bibtex.process_compiled_bibtex_to_bibtex *)
Variable convert : str -> list str.
(** bibtex_parser.py:55-76 *)
Definition is_bibtex (content : str) : bool := match re_search (BibTexPattern isword) content with Some _ => true | None => false end.
Definition bibtex_can_handle (content : str) : bool := is_bibtex content || is_compiled_bibtex content.
(** bib_parser.py:44-68.  [None]: re.error, or a field loop that has not ended after [fuel] rounds *)
Definition bib_parse (fuel : nat) (content : str) : option (list entry) :=
  let content := preprocess content in
  if is_bibdiv content then option_map (map ETex) (bibdiv_parse isword lower fuel content)
  else if bibtex_can_handle content then option_map (map ETex) (bibtex_parse isword lower convert fuel content)
  else if can_handle_bibitems isword content then option_map (map EItem) (parse_bibitems isword content)
  else Some [].
End BibParser.

(** posixpath.dirname *)
Fixpoint drop_until_slash (s : str) : str := match s with [] => [] | x :: r => if N.eqb x c_slash then s else drop_until_slash r end.
Fixpoint drop_slashes (s : str) : str := match s with x :: r => if N.eqb x c_slash then drop_slashes r else s | [] => [] end.
Definition dirname (p : str) : str :=
  let head := rev (drop_until_slash (rev p)) in
  if forallb (N.eqb c_slash) head then head else rev (drop_slashes (rev head)).
Definition bbl : str := lit ".bbl".
Definition bib : str := lit ".bib".
Section Files.
(** what os.path.exists and open see: the text of the files (simplification: whatever exists
    can be read), and os.listdir ([None]: FileNotFoundError) *)
Variable files : str -> option str.
Variable listdir : str -> option (list str).
(** bib_parser.py:88-104 *)
Definition own_content (path : str) : option str :=
  match files path with
  | Some c => if endswith path bbl || endswith path bib then Some c else match files (path ++ bbl) with Some c => Some c | None => files (path ++ bib) end
  | None => match files (path ++ bbl) with Some c => Some c | None => files (path ++ bib) end
  end.
(** bib_parser.py:106-121; [None]: raises *)
Definition fallback_content (path : str) : option (option str) :=
  let main_bbl := TokensModel.path_join (dirname path) (lit "main.bbl") in
  match files main_bbl with
  | Some c => Some (Some c)
  | None =>
      match listdir (dirname path) with
      | None => None
      | Some names =>
          match filter (fun f => endswith f bbl) names with
          | [] => Some None
          | f :: _ => match files (TokensModel.path_join (dirname path) f) with Some c => Some (Some c) | None => None end
          end
      end
  end.
(** bib_parser.py:79-136 *)
Definition parse_file {A} (parse : str -> option (list A)) (path : str) : option (list A) :=
  let finish content := match content with Some (x :: c) => parse (x :: c) | _ => Some [] end in
  match own_content path with
  | Some (x :: c) => finish (Some (x :: c))
  | _ => match fallback_content path with None => None | Some content => finish content end
  end.
End Files.
