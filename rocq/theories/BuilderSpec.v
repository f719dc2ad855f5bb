(** What organising a document should do, stated on the preorder walk of the
    token tree. *)
From Coq Require Import List NArith ZArith PeanoNat Lia Bool String.
From Verif Require Import PyStr Json BuilderModel.
Import ListNotations.
Notation length := List.length.
Notation concat := List.concat.
Open Scope list_scope.

(** A token without its children, and its children. *)
Definition head (d : dict) : dict := match get k_content d with VList _ => remove k_content d | _ => d end.
Definition children (d : dict) : list val := match get k_content d with VList c => c | _ => [] end.
Definition of_type (s : string) (d : dict) : Prop := lookup k_type d = Some (VStr (lit s)).
Definition is_dict (v : val) : Prop := match v with VDict _ => True | _ => False end.

(** The document as a sequence: every token without its children, before its
    children. *)
Inductive preorder : list val -> list val -> Prop :=
| po_nil : preorder [] []
| po_leaf : forall v r hs, ~ is_dict v -> preorder r hs -> preorder (v :: r) (v :: hs)
| po_tok : forall d r h1 h2, preorder (children d) h1 -> preorder r h2 ->
    preorder (VDict d :: r) (VDict (head d) :: h1 ++ h2).

(** The same with, for each token, whether it is in the appendix and how many
    lists enclose it. *)
Record event := { e_app : bool; e_depth : nat; e_head : val }.
Inductive walk : bool -> nat -> list val -> list event -> Prop :=
| wk_nil : forall app dep, walk app dep [] []
| wk_leaf : forall app dep v r es, ~ is_dict v -> walk app dep r es ->
    walk app dep (v :: r) ({| e_app := app; e_depth := dep; e_head := v |} :: es)
| wk_appendix : forall app dep d r e1 e2, of_type "appendix" d ->
    walk true dep (children d) e1 -> walk true dep r e2 ->
    walk app dep (VDict d :: r) ({| e_app := app; e_depth := dep; e_head := VDict (head d) |} :: e1 ++ e2)
| wk_list : forall app dep d r e1 e2, of_type "list" d ->
    walk app (dep + 1) (children d) e1 -> walk app dep r e2 ->
    walk app dep (VDict d :: r) ({| e_app := app; e_depth := dep; e_head := VDict (head d) |} :: e1 ++ e2)
| wk_other : forall app dep d r e1 e2, ~ of_type "appendix" d -> ~ of_type "list" d ->
    walk app dep (children d) e1 -> walk app dep r e2 ->
    walk app dep (VDict d :: r) ({| e_app := app; e_depth := dep; e_head := VDict (head d) |} :: e1 ++ e2).

(** * Numbers *)
Definition has_type (s : string) (e : event) : bool :=
  match e_head e with VDict d => is_str (get k_type d) s | _ => false end.
Definition numbered_as (s : string) (e : event) : bool :=
  has_type s e && match e_head e with VDict d => truthy (get k_numbered d) | _ => false end.
(** the level of a numbered section; sections are numbered unless they say
    otherwise *)
Definition numbered_section (e : event) : option Z :=
  match e_head e with
  | VDict d => if is_str (get k_type d) "section" && truthy (get_default k_numbered (VBool true) d)
               then match get_default k_level (VInt 1) d with VInt z => Some z | _ => None end else None
  | _ => None
  end.
Definition level_one_section (e : event) : bool :=
  match e_head e with VDict d => is_str (get k_type d) "section" && val_eqb (get k_level d) (VInt 1) | _ => false end.

Definition count (p : event -> bool) (l : list event) : nat := length (filter p l).
(** what follows the last event satisfying [p] *)
Fixpoint since (p : event -> bool) (l : list event) : list event :=
  match l with
  | [] => []
  | e :: r => if existsb p r then since p r else if p e then r else l
  end.

Definition at_level (z : Z) (e : event) : bool := match numbered_section e with Some z' => Z.eqb z' z | None => false end.
(** A new section of a lower level, or the appendix, restarts a level. *)
Definition restarts (z : Z) (e : event) : bool :=
  has_type "appendix" e || match numbered_section e with Some z' => Z.ltb z' z | None => false end.
Definition section_count (z : Z) (before : list event) : nat := count (at_level z) (since (restarts z) before).

(** letter (1 = A) or decimal *)
Definition first_component (app : bool) (n : nat) : str := if app then [N.of_nat (64 + n)] else str_of_nat n.
(** dotted section number of a section of level [z], [upto] including it *)
Definition section_number (app : bool) (z : Z) (upto : list event) : str :=
  join (lit ".") (first_component app (section_count 1 upto) ::
                  map (fun i => str_of_nat (section_count (Z.of_nat i) upto)) (seq 2 (Z.to_nat z - 1))).

Definition simple_types : list string := ["equation"; "algorithm"; "table"; "figure"]%string.
Definition number_of (before : list event) (e : event) : option str :=
  match find (fun s => numbered_as s e) simple_types with
  | Some s => Some (str_of_nat (S (count (numbered_as s) before)))
  | None =>
      if numbered_as "math_env" e
      then Some (str_of_nat (section_count 1 before) ++ lit "." ++
                 str_of_nat (S (count (numbered_as "math_env") (since level_one_section before))))
      else match numbered_section e with
           | Some z => Some (section_number (e_app e) z (before ++ [e]))
           | None => None
           end
  end.

(** The token as it should appear in the result. *)
Definition decorate (before : list event) (e : event) : val :=
  match e_head e with
  | VDict d =>
      let d := match number_of before e with Some s => set k_numbering (VStr s) d | None => d end in
      VDict (if has_type "list" e then set k_depth (VInt (Z.of_nat (e_depth e + 1))) d else d)
  | v => v
  end.
Fixpoint annotate (before es : list event) : list val :=
  match es with [] => [] | e :: r => decorate before e :: annotate (before ++ [e]) r end.

(** * Documents *)
(** Token lists as the parser makes them: sections and paragraphs have an
    integer level and no children yet, numbered sections have level 1 to 3, the
    content of an appendix is a list.  [seen]: an appendix came before in the
    same list; a bibliography after it must be the last token. *)
Definition no_children (d : dict) : Prop := lookup k_content d = None \/ lookup k_content d = Some (VList []).
Definition special (s : str) : Prop :=
  s = lit "appendix" \/ s = lit "bibliography" \/ s = lit "section" \/ s = lit "paragraph".
Inductive document : bool -> list val -> Prop :=
| doc_nil : forall seen, document seen []
| doc_leaf : forall seen v r, ~ is_dict v -> document seen r -> document seen (v :: r)
| doc_appendix : forall seen d r, of_type "appendix" d ->
    (lookup k_content d = None \/ exists c, lookup k_content d = Some (VList c)) ->
    document false (children d) -> document true r -> document seen (VDict d :: r)
| doc_bibliography : forall seen d r, of_type "bibliography" d -> (seen = true -> r = []) ->
    document false (children d) -> document seen r -> document seen (VDict d :: r)
| doc_section : forall seen d r z, of_type "section" d -> lookup k_level d = Some (VInt z) -> no_children d ->
    (truthy (get_default k_numbered (VBool true) d) = true -> (1 <= z <= 3)%Z) ->
    document seen r -> document seen (VDict d :: r)
| doc_paragraph : forall seen d r z, of_type "paragraph" d -> lookup k_level d = Some (VInt z) -> no_children d ->
    document seen r -> document seen (VDict d :: r)
| doc_other : forall seen d r s, lookup k_type d = Some (VStr s) -> ~ special s ->
    document false (children d) -> document seen r -> document seen (VDict d :: r).
