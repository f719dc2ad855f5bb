(** Model of LatexParser.add_token, LatexParser._convert_bibentry_tokens and
    LatexParser._parse_bib_file (latex2json/parser/tex_parser.py).  A token list
    is a list of dicts; updating [tokens[-1]] in place is replacing the last
    element (aliasing of token objects is the subject of AliasModel.v). *)
From Coq Require Import List NArith ZArith PeanoNat Lia Bool String.
From Verif Require Import PyStr Json BuilderModel.
Import ListNotations.
Notation length := List.length.
Notation concat := List.concat.
Open Scope list_scope.

(** What add_token accepts: None, a string, a dict or a list of dicts. *)
Inductive tok_in := TNone | TStr (s : str) | TDict (d : dict) | TList (l : list dict).

(** [a += b] on the contents of two tokens, for the values a content can have: strings
    concatenate, a list is extended by the elements of an iterable (the characters
    of a string, the keys of a dict), everything else is a TypeError.  (Simplified:
    int/bool addition is a TypeError here.) *)
Definition py_iadd (a b : val) : res val :=
  match a, b with
  | VStr x, VStr y => Ok (VStr (x ++ y))
  | VList x, VList y => Ok (VList (x ++ y))
  | VList x, VStr y => Ok (VList (x ++ map (fun c => VStr [c]) y))
  | VList x, VDict y => Ok (VList (x ++ map (fun kv => VStr (fst kv)) y))
  | _, _ => Raise TypeError
  end.

(** [len(v)] *)
Definition py_len (v : val) : res nat :=
  match v with
  | VStr s => Ok (length s)
  | VList l => Ok (length l)
  | VDict d => Ok (length d)
  | _ => Raise TypeError
  end.

(** [k in d] *)
Definition has_key (k : str) (d : dict) : bool := match lookup k d with Some _ => true | None => false end.

(** tokens[-1] and the list before it *)
Fixpoint last_of (tokens : list dict) : option (list dict * dict) :=
  match tokens with
  | [] => None
  | t :: r => match last_of r with None => Some ([], t) | Some (p, l) => Some (t :: p, l) end
  end.

(** tex_parser.py:192-207 (a dict that is to be added): the merge of plain texts. *)
Definition merge_text (last token : dict) (add_space : bool) : res dict :=
  do c0 <- getitem k_content last;
  do c1 <- (if add_space then
              do s <- str_of c0;
              if negb (endswith s (lit " ")) then Ok (VStr (s ++ lit " ")) else Ok c0
            else Ok c0);
  do c <- getitem k_content token;
  do c2 <- py_iadd c1 c;
  Ok (set k_content c2 last).

Definition add_dict (token : dict) (tokens : list dict) (add_space : bool) : res (list dict) :=
  if is_str (get k_type token) "text" then
    match last_of tokens with
    | Some (before, last) =>
        if is_str (get k_type last) "text" && negb (has_key k_styles token) && negb (has_key k_styles last) then
          do m <- merge_text last token add_space; Ok (before ++ [m])
        else Ok (tokens ++ [token])
    | None => Ok (tokens ++ [token])
    end
  else if existsb (is_str (get k_type token)) ["group"; "environment"; "list"]%string then
    do c <- getitem k_content token;
    do n <- py_len c;
    if n <? 1 then Ok tokens else Ok (tokens ++ [token])
  else Ok (tokens ++ [token]).

(** tex_parser.py:163-215 *)
Definition add_token (token : tok_in) (tokens : list dict) (add_space : bool) : res (list dict) :=
  match token with
  | TNone => Ok tokens
  | TStr [] => Ok tokens
  | TStr s => add_dict [(k_type, VStr (lit "text")); (k_content, VStr s)] tokens add_space
  | TDict [] => Ok tokens
  | TDict d => add_dict d tokens add_space
  | TList [] => Ok tokens
  | TList l => Ok (tokens ++ l)
  end.

(** Successive calls with the same list (the way parse uses it). *)
Fixpoint add_tokens (calls : list (tok_in * bool)) (tokens : list dict) : res (list dict) :=
  match calls with
  | [] => Ok tokens
  | (t, sp) :: r => do tokens' <- add_token t tokens sp; add_tokens r tokens'
  end.

(* ------------------------------------------------------------------ *)
(** BibTexEntry, bib/bibtex_parser.py:18-29 (the fields that reach the token) *)
Record bib_entry := { be_format : str; be_key : str; be_content : str; be_label : val; be_fields : val }.

Definition k_cite_key := lit "cite_key".
Definition k_format := lit "format".
Definition k_label := lit "label".
Definition k_fields := lit "fields".

(** tex_parser.py:287-299.  [parse] is LatexParser.parse. *)
Definition convert_bibentry (parse : str -> res val) (e : bib_entry) : res dict :=
  do content <- (if str_eqb (be_format e) (lit "bibitem") then parse (be_content e) else Ok (VStr (be_content e)));
  Ok [(k_type, VStr (lit "bibitem")); (k_format, VStr (be_format e)); (k_cite_key, VStr (be_key e));
      (k_content, content); (k_label, be_label e); (k_fields, be_fields e)].

(** posixpath.join of two arguments *)
Definition path_join (a b : str) : str :=
  if startswith b (lit "/") then b
  else match a with [] => b | _ => if endswith a (lit "/") then a ++ b else a ++ lit "/" ++ b end.

(** tex_parser.py:315 *)
Definition bib_paths (file_path : str) : list str :=
  map strip (filter (fun p => negb (str_eqb (strip p) [])) (split_char c_comma file_path)).

(** tex_parser.py:317-333; [parse_file] is BibParser.parse_file; an exception while
    reading or converting one file drops the whole file. *)
Fixpoint bib_tokens (parse : str -> res val) (parse_file : str -> res (list bib_entry)) (dir : str) (paths : list str) : list dict :=
  match paths with
  | [] => []
  | p :: r =>
      let full := match dir with [] => p | _ => path_join dir p end in
      match (do es <- parse_file full; mmap (convert_bibentry parse) es) with
      | Ok ts => ts
      | Raise _ => []
      end ++ bib_tokens parse parse_file dir r
  end.

(** tex_parser.py:335-342.  The keys are always strings here. *)
Fixpoint dedupe (seen : list val) (tokens : list dict) : res (list dict) :=
  match tokens with
  | [] => Ok []
  | t :: r =>
      do k <- getitem k_cite_key t;
      if existsb (val_eqb k) seen then dedupe seen r
      else do o <- dedupe (k :: seen) r; Ok (t :: o)
  end.

(** tex_parser.py:300-344 *)
Definition parse_bib_file (parse : str -> res val) (parse_file : str -> res (list bib_entry)) (dir file_path : str) : res dict :=
  do l <- dedupe [] (bib_tokens parse parse_file dir (bib_paths file_path));
  Ok [(k_type, VStr (lit "bibliography")); (k_content, VList (map (fun d => VDict d) l))].
