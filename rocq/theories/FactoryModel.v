(** Model of latex2json/structure/token_factory.py, of the [process] methods of
    structure/tokens/{base,bibliography,equation,tabular}.py and of
    TokenBuilder.build (builder.py:425-445). *)
From Coq Require Import List NArith ZArith PeanoNat Lia Bool String.
From Verif Require Import PyStr Json BuilderModel.
Import ListNotations.
Notation length := List.length.
Notation concat := List.concat.
Open Scope list_scope.

(** tokens/types.py:7-62, the values of TokenType *)
Definition TOKEN_TYPES : list string :=
  ["document"; "title"; "section"; "paragraph"; "abstract"; "appendix"; "command"; "text"; "quote"; "environment";
   "math_env"; "figure"; "subfigure"; "table"; "tabular"; "caption"; "includegraphics"; "includepdf"; "diagram"; "list";
   "item"; "equation"; "code"; "algorithm"; "algorithmic"; "citation"; "ref"; "url"; "footnote"; "bibliography";
   "bibitem"; "author"; "email"; "affiliation"; "keywords"; "address"; "group"]%string.

Definition k_labels := lit "labels".
Definition k_align := lit "align".
Definition k_placeholders := lit "placeholders".
Definition k_rowspan := lit "rowspan".
Definition k_colspan := lit "colspan".

Definition has (k : str) (d : dict) : bool := match lookup k d with Some _ => true | None => false end.
Definition known (s : str) : bool := existsb (fun t => str_eqb s (lit t)) TOKEN_TYPES.

Section Factory.
(** Pydantic validation and construction of the class registered for a type
    (tokens/registry.py:58-108): any function of the type and the fields. *)
Variable validate : str -> dict -> res val.
(** TableCell(...) *)
Variable table_cell : dict -> res val.

(** token_factory.py:52-71.  [None] = drop.  Type values that are not strings
    (a TokenType member never occurs in parser output): falsy ones drop, others
    reach validation as an unknown class. *)
Definition token_type (data : dict) : option str :=
  match get k_type data with
  | VStr t => if str_eqb t (lit "date") then None else if known t then Some t else None
  | v => if truthy v then Some (lit "?") else None
  end.

(** The loop [for item in content: output.append(create(item))]. *)
Fixpoint create_all (create : val -> res val) (l : list val) : res (list val) :=
  match l with [] => Ok [] | x :: r => do y <- create x; do ys <- create_all create r; Ok (y :: ys) end.
(** iterating over a list value; over another value a TypeError (Python would
    iterate over the characters of a string) *)
Definition as_list (v : val) : res (list val) := match v with VList l => Ok l | _ => Raise TypeError end.

(** tabular.py:96-110; nesting bounded by [n] *)
Fixpoint process_nested_list (create : val -> res val) (n : nat) (l : list val) : res (list val) :=
  match n with
  | O => Raise NoFuel
  | S n => create_all (fun item =>
      match item with
      | VDict d => if has k_type d then create item else Ok item
      | VList l => do l' <- process_nested_list create n l; Ok (VList l')
      | _ => Ok item
      end) l
  end.
(** tabular.py:62-95, one cell; a dict that is neither a token nor a span is
    skipped *)
Definition tabular_cell (create : val -> res val) (n : nat) (cell : val) : res (list val) :=
  match cell with
  | VDict d =>
      if has k_type d then do c <- create cell; Ok [c]
      else if has k_rowspan d || has k_colspan d then
        do content <- getitem k_content d;
        do content <- match content with
                      | VList l => do l' <- process_nested_list create n l; Ok (VList l')
                      | v => Ok v
                      end;
        do c <- table_cell [(k_rowspan, get_default k_rowspan (VInt 1) d); (k_colspan, get_default k_colspan (VInt 1) d); (k_content, content)];
        Ok [c]
      else Ok []
  | VList l => do l' <- process_nested_list create n l; Ok [VList l']
  | v => Ok [v]
  end.

(** token_factory.py:105-117 *)
Fixpoint content_loop (create process : val -> res val) (l : list val) : res (list val) :=
  match l with
  | [] => Ok []
  | item :: r =>
      match item with
      | VList _ => do x <- process item; do r' <- content_loop create process r; Ok (x :: r')
      | VDict i =>
          if has k_type i then
            do x <- create item;
            do r' <- content_loop create process r;
            Ok (match x with VNone => r' | _ => x :: r' end)
          else do r' <- content_loop create process r; Ok (item :: r')
      | _ => do r' <- content_loop create process r; Ok (item :: r')
      end
  end.

(** token_factory.py:73-103 and the [process] class methods of
    tokens/{tabular,bibliography,equation}.py, tokens/environment.py: the
    construction of one token of type [t]; [create] and [process] are the
    recursive calls, [n] bounds the nesting of cell lists. *)
Definition build_token (create process : val -> res val) (n : nat) (t : str) (d : dict) : res val :=
  if str_eqb t (lit "tabular") then
    do rows <- getitem k_content d;
    do rows <- as_list rows;
    do rows' <- create_all (fun row => do cells <- as_list row;
                                       do cells' <- create_all (fun c => do l <- tabular_cell create n c; Ok (VList l)) cells;
                                       Ok (VList (concat (map (fun v => match v with VList l => l | _ => [] end) cells')))) rows;
    validate t [(k_content, VList rows')]
  else if str_eqb t (lit "bibliography") then
    do l <- as_list (get_default k_content (VList []) d);
    do l' <- create_all create (filter (fun v => match v with VDict i => is_str (get k_type i) "bibitem" | _ => false end) l);
    validate t [(k_content, VList l')]
  else if str_eqb t (lit "equation") then
    do p <- (if has k_placeholders d then
               match get k_placeholders d with
               | VDict ps =>
                   do ps' <- mmap (fun kv => do l <- as_list (snd kv); do l' <- create_all create l; Ok (fst kv, VList l')) ps;
                   Ok (VDict ps')
               | _ => Raise AttributeError
               end
             else Ok VNone);
    do c <- getitem k_content d;
    validate t [(k_content, c); (k_display, get k_display d); (k_align, get k_align d); (k_numbering, get k_numbering d);
                (k_placeholders, p); (k_labels, get k_labels d); (k_styles, get k_styles d)]
  else if str_eqb t (lit "math_env") then
    do c <- (if has k_content d then do l <- as_list (get k_content d); create_all create l else Ok []);
    do ti <- (if has k_title d then do l <- as_list (get k_title d); do l' <- create_all create l; Ok (VList l') else Ok VNone);
    do pr <- (if has k_proof d then create (get k_proof d) else Ok VNone);
    validate t [(k_content, VList c); (k_labels, get k_labels d); (k_styles, get k_styles d); (k_name, get k_name d);
                (k_numbering, get k_numbering d); (k_title, ti); (k_proof, pr)]
  else
    do d <- (if has k_content d then do c <- process (get k_content d); Ok (set k_content c d) else Ok d);
    do d <- (if has k_title d then do c <- process (get k_title d); Ok (set k_title c d) else Ok d);
    validate t d.

(** token_factory.py:31-50, 105-118.  [n] bounds the nesting. *)
Fixpoint create (n : nat) (data : val) {struct n} : res val :=
  match n with
  | O => Raise NoFuel
  | S n =>
      match data with
      | VStr s => Ok (VStr s)
      | VList _ => Raise ValueError
      | VDict d =>
          match token_type d with
          | None => Ok VNone
          | Some t => build_token (create n) (process_content n) n t d
          end
      | _ => Raise AttributeError
      end
  end
with process_content (n : nat) (content : val) {struct n} : res val :=
  match n with
  | O => Raise NoFuel
  | S n =>
      match content with
      | VDict d => if has k_type d then create n content else Ok content
      | VList l =>
          do l' <- content_loop (create n) (process_content n) l; Ok (VList l')
      | v => Ok v
      end
  end.
(** TokenFactory.create with enough nesting for its argument *)
Definition factory_create (v : val) : res val := create (S (2 * vsize v)) v.

(** builder.py:439-444.  Tokens are truthy objects, so [if data] drops None and
    the empty string. *)
Fixpoint build_loop (tokens : list val) : res (list val) :=
  match tokens with
  | [] => Ok []
  | t :: r => do x <- factory_create t; do r' <- build_loop r; Ok (if truthy x then x :: r' else r')
  end.
Definition build (st : counters) (tokens : list val) : counters * res (list val) :=
  let '(st, organized) := organize_content false st tokens in
  (st, do o <- organized; build_loop o).
End Factory.
