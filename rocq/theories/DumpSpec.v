(** What the JSON of a token has to show, and where tokens may occur. *)
From Coq Require Import List NArith ZArith PeanoNat Bool String.
From Verif Require Import PyStr Json DumpModel.
Import ListNotations. Notation length := List.length. Open Scope list_scope.

(** [shows v w]: the value [w] shows all of [v].  A token is an object with all its
    fields that are not None, in order. *)
Inductive shows : pv -> val -> Prop :=
| s_none : shows PNone VNone
| s_bool : forall b, shows (PBool b) (VBool b)
| s_int : forall z, shows (PInt z) (VInt z)
| s_str : forall s, shows (PStr s) (VStr s)
| s_list : forall l m, all_shown l m -> shows (PList l) (VList m)
| s_dict : forall d e, members_shown d e -> shows (PDict d) (VDict e)
| s_cell : forall c r s c' r' s', shows c c' -> shows r r' -> shows s s' ->
    shows (PCell c r s) (VDict [(lit "content", c'); (lit "rowspan", r'); (lit "colspan", s')])
| s_token : forall cls f e, fields_shown f e -> shows (PTok cls f) (VDict e)
with all_shown : list pv -> list val -> Prop :=
| a_nil : all_shown [] []
| a_cons : forall x y l m, shows x y -> all_shown l m -> all_shown (x :: l) (y :: m)
with members_shown : list (str * pv) -> list (str * val) -> Prop :=
| m_nil : members_shown [] []
| m_cons : forall k x y d e, shows x y -> members_shown d e -> members_shown ((k, x) :: d) ((k, y) :: e)
with fields_shown : list (str * pv) -> list (str * val) -> Prop :=
| f_nil : fields_shown [] []
| f_none : forall k f e, fields_shown f e -> fields_shown ((k, PNone) :: f) e
| f_cons : forall k x y f e, x <> PNone -> shows x y -> fields_shown f e -> fields_shown ((k, x) :: f) ((k, y) :: e).
(** the fields that every token has *)
Definition common (k : str) : Prop := In k [lit "type"; lit "styles"; lit "content"; lit "labels"].
(** the fields that hold tokens of any kind *)
Definition holds_tokens (cls k : str) : Prop :=
  k = lit "content" \/ (k = lit "title" /\ In cls [lit "section"; lit "paragraph"; lit "math_env"]) \/ (k = lit "proof" /\ cls = lit "math_env").
(** values in which every token has only common fields *)
Inductive light : pv -> Prop :=
| l_none : light PNone
| l_bool : forall b, light (PBool b)
| l_int : forall z, light (PInt z)
| l_str : forall s, light (PStr s)
| l_list : forall l, (forall x, In x l -> light x) -> light (PList l)
| l_dict : forall d, (forall k x, In (k, x) d -> light x) -> light (PDict d)
| l_token : forall cls f, (forall k x, In (k, x) f -> x <> PNone -> common k) -> (forall k x, In (k, x) f -> light x) -> light (PTok cls f).
(** tokens nested in any way through the fields that hold tokens; the other fields
    are light; cells ([in_cell]) only in the content of a tabular *)
Inductive nested : bool -> pv -> Prop :=
| n_none : forall c, nested c PNone
| n_bool : forall c b, nested c (PBool b)
| n_int : forall c z, nested c (PInt z)
| n_str : forall c s, nested c (PStr s)
| n_list : forall c l, (forall x, In x l -> nested c x) -> nested c (PList l)
| n_dict : forall c d, (forall k x, In (k, x) d -> nested c x) -> nested c (PDict d)
| n_cell : forall x r s, nested true x -> nested true r -> nested true s -> nested true (PCell x r s)
| n_token : forall c cls f,
    (forall k x, In (k, x) f -> ~ holds_tokens cls k -> light x) ->
    (forall k x, In (k, x) f -> holds_tokens cls k -> cls = lit "tabular" -> nested true x) ->
    (forall k x, In (k, x) f -> holds_tokens cls k -> cls <> lit "tabular" -> nested false x) ->
    nested c (PTok cls f).
(** [v] with every token cut down to its common fields *)
Inductive cut : pv -> pv -> Prop :=
| c_none : cut PNone PNone
| c_bool : forall b, cut (PBool b) (PBool b)
| c_int : forall z, cut (PInt z) (PInt z)
| c_str : forall s, cut (PStr s) (PStr s)
| c_list : forall l m, Forall2 cut l m -> cut (PList l) (PList m)
| c_dict : forall d e, Forall2 (fun a b => fst a = fst b /\ cut (snd a) (snd b)) d e -> cut (PDict d) (PDict e)
| c_token : forall cls f g, cut_fields f g -> cut (PTok cls f) (PTok cls g)
with cut_fields : list (str * pv) -> list (str * pv) -> Prop :=
| cf_nil : cut_fields [] []
| cf_drop : forall k x f g, ~ common k -> cut_fields f g -> cut_fields ((k, x) :: f) g
| cf_keep : forall k x y f g, common k -> cut x y -> cut_fields f g -> cut_fields ((k, x) :: f) ((k, y) :: g).
(** no cell anywhere *)
Inductive no_cells : pv -> Prop :=
| nc_none : no_cells PNone
| nc_bool : forall b, no_cells (PBool b)
| nc_int : forall z, no_cells (PInt z)
| nc_str : forall s, no_cells (PStr s)
| nc_list : forall l, (forall x, In x l -> no_cells x) -> no_cells (PList l)
| nc_dict : forall d, (forall k x, In (k, x) d -> no_cells x) -> no_cells (PDict d)
| nc_token : forall cls f, (forall k x, In (k, x) f -> no_cells x) -> no_cells (PTok cls f).
