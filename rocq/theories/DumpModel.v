(** Model of how a token becomes JSON values: the model_dump methods of
    structure/tokens/{base,document,tabular}.py as TexReader.to_json calls them,
    model_dump(mode=json, exclude_none=True), tex_reader.py:144-149.
    A token is its class, named by its type, with its fields in the order of
    declaration; enumerations are their values. *)
From Coq Require Import List NArith ZArith PeanoNat Bool String.
From Verif Require Import PyStr Json JsonTextModel.
Import ListNotations. Notation length := List.length. Notation concat := List.concat. Open Scope list_scope.

(** [PTok] a BaseToken of any class; [PCell] a TableCell, tabular.py:13-16 *)
Inductive pv :=
| PNone
| PBool (b : bool)
| PInt (z : Z)
| PStr (s : str)
| PList (l : list pv)
| PDict (d : list (str * pv))
| PTok (cls : str) (fields : list (str * pv))
| PCell (content rowspan colspan : pv).
Definition none (v : pv) : bool := match v with PNone => true | _ => false end.
Definition k_proof := lit "proof".
Definition k_rowspan := lit "rowspan".
Definition k_colspan := lit "colspan".
Definition k_labels := lit "labels".
Definition k_styles := lit "styles".
Definition k_title := lit "title".
Definition k_content := lit "content".
Definition k_type := lit "type".
Definition is_in (k : str) (l : list string) : bool := existsb (fun s => str_eqb k (lit s)) l.
(** Who serialises a value: BaseToken.serialize_value (base.py:15-28), process_cell
    (tabular.py:41-53), or pydantic by the annotation of the field, which is BaseToken
    for every token in a field that no model_dump treats itself. *)
Inductive how := Value | Cell | Annotated.
(** Which fields the model_dump methods treat themselves: content always
    (base.py:38-44), tabular content by process_cell (tabular.py:55-58), the title of
    sections and paragraphs (document.py:22-30), title and proof of math
    environments (base.py:71-81).  (An empty title is left to pydantic: the same empty list.) *)
Definition treats (cls k : str) : how :=
  if str_eqb k k_content then (if str_eqb cls (lit "tabular") then Cell else Value)
  else if str_eqb k k_title && is_in cls ["section"; "paragraph"; "math_env"]%string then Value
  else if str_eqb k k_proof && str_eqb cls (lit "math_env") then Value
  else Annotated.
(** base.py:30-50, tabular.py:30-61.  None fields are left out: by pydantic and
    base.py:46-48, for a tabular by tabular.py:35-36 and 59-60 (its only other fields
    are styles and labels); None inside lists and cells stays.
    [Annotated]: pydantic v2 serialises an instance of a subclass by the fields of
    the annotated class (its content by Union[str, List[BaseToken]]); simplified: where the
    content is a list of lists, pydantic falls back to run-time types.
    A cell outside a tabular would be its repr; here [VNone]. *)
Fixpoint dump (h : how) (v : pv) {struct v} : val :=
  match v with
  | PNone => VNone
  | PBool b => VBool b
  | PInt z => VInt z
  | PStr s => VStr s
  | PList l => VList (map (dump h) l)
  | PDict d => VDict (map (fun kx => match kx with (k, x) => (k, dump h x) end) d)
  | PCell c r s =>
      match h with
      | Cell => VDict [(k_content, dump Cell c); (k_rowspan, dump Cell r); (k_colspan, dump Cell s)]
      | _ => VNone
      end
  | PTok cls fields =>
      VDict (concat (map (fun kx => match kx with (k, x) =>
        if none x then []
        else match h with
             | Annotated => if is_in k ["type"; "styles"; "content"; "labels"]%string then [(k, dump Annotated x)] else []
             | _ => [(k, dump (treats cls k) x)]
             end end) fields))
  end.
(** token.model_dump(mode=json, exclude_none=True) *)
Definition model_dump (t : pv) : val := dump Value t.
(** tex_reader.py:144-156 *)
Definition to_json (tokens : list pv) (color_map : dict) : str := answer_text (map model_dump tokens) color_map.
