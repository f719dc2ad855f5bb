(** What joining adjacent text tokens should do. *)
From Coq Require Import List NArith ZArith PeanoNat Lia Bool String.
From Verif Require Import PyStr Json BuilderModel BuilderSpec.
Import ListNotations.
Notation length := List.length.
Notation concat := List.concat.
Open Scope list_scope.

(** No space is wanted before a text that starts with one of these... *)
Definition closed_left (b : str) : Prop := exists c r, b = c :: r /\ In c (lit " .,!?:;)]}").
(** ... or after one that ends with one of these (34 is the double quote). *)
Definition closed_right (a : str) : Prop := exists r c, a = r ++ [c] /\ In c (34%N :: lit " ([{'").
Inductive glued : str -> str -> str -> Prop :=
| gl_plain : forall a b, closed_left b \/ closed_right a -> glued a b (a ++ b)
| gl_space : forall a b, ~ closed_left b -> ~ closed_right a -> glued a b (a ++ lit " " ++ b).
(** several texts in a row *)
Inductive glued_all : str -> list str -> str -> Prop :=
| ga_nil : forall a, glued_all a [] a
| ga_cons : forall a b ab r s, glued a b ab -> glued_all ab r s -> glued_all a (b :: r) s.

Definition is_text_of (styles : val) (content : str) (d : dict) : Prop :=
  of_type "text" d /\ get k_styles d = styles /\ lookup k_content d = Some (VStr content).
Definition text_token (v : val) : Prop := exists d, v = VDict d /\ of_type "text" d.
(** the next token is a text of the same style *)
Definition continues (styles : val) (r : list val) : Prop :=
  exists d r', r = VDict d :: r' /\ of_type "text" d /\ get k_styles d = styles.

(** Every maximal run of equally styled texts becomes one text token (the
    first, with the glued content); everything else is unchanged. *)
Inductive joined : list val -> list val -> Prop :=
| jn_nil : joined [] []
| jn_other : forall v r o, ~ text_token v -> joined r o -> joined (v :: r) (v :: o)
| jn_run : forall d styles c ds cs s r o,
    is_text_of styles c d -> Forall2 (is_text_of styles) cs ds -> glued_all c cs s ->
    ~ continues styles r -> joined r o ->
    joined (VDict d :: map VDict ds ++ r) (VDict (set k_content (VStr s) d) :: o).

(** texts carry a string *)
Definition texts_ok (l : list val) : Prop :=
  forall d, In (VDict d) l -> of_type "text" d -> exists s, lookup k_content d = Some (VStr s).

(** * The whole tree *)
(** [tidy m l o]: in [l] and in everything below it, runs of texts are joined,
    except ([m = false]) between the cells of a table row. *)
Inductive tidy : bool -> list val -> list val -> Prop :=
| td_join : forall l m o, tidied l m -> joined m o -> tidy true l o
| td_row : forall l o, tidied l o -> tidy false l o
with tidied : list val -> list val -> Prop :=
| ti_nil : tidied [] []
| ti_scalar : forall v r r', ~ is_dict v -> (forall l, v <> VList l) -> tidied r r' -> tidied (v :: r) (v :: r')
| ti_list : forall l l' r r', tidy true l l' -> tidied r r' -> tidied (VList l :: r) (VList l' :: r')
| ti_dict : forall d d1 d2 r r', tidy_title d d1 -> tidy_content d1 d2 -> tidied r r' -> tidied (VDict d :: r) (VDict d2 :: r')
with tidy_title : dict -> dict -> Prop :=
| tt_none : forall d, (forall l, get k_title d <> VList l) -> tidy_title d d
| tt_list : forall d l l', get k_title d = VList l -> tidy true l l' -> tidy_title d (set k_title (VList l') d)
with tidy_content : dict -> dict -> Prop :=
| tc_none : forall d, (forall l, get k_content d <> VList l) -> tidy_content d d
| tc_list : forall d l l', ~ of_type "tabular" d -> get k_content d = VList l -> tidy true l l' ->
    tidy_content d (set k_content (VList l') d)
| tc_tabular : forall d l l', of_type "tabular" d -> get k_content d = VList l -> tidy_rows l l' ->
    tidy_content d (set k_content (VList l') d)
with tidy_rows : list val -> list val -> Prop :=
| tr_nil : tidy_rows [] []
| tr_row : forall l l' r r', tidy false l l' -> tidy_rows r r' -> tidy_rows (VList l :: r) (VList l' :: r').

(** Token trees whose texts carry strings and whose tables carry rows. *)
Inductive parsed : list val -> Prop :=
| pa_nil : parsed []
| pa_scalar : forall v r, ~ is_dict v -> (forall l, v <> VList l) -> parsed r -> parsed (v :: r)
| pa_list : forall l r, parsed l -> parsed r -> parsed (VList l :: r)
| pa_dict : forall d r,
    (forall l, get k_title d = VList l -> parsed l) ->
    (of_type "text" d -> exists s, lookup k_content d = Some (VStr s)) ->
    (of_type "tabular" d -> exists rows, lookup k_content d = Some (VList rows) /\ forall v, In v rows -> exists l, v = VList l) ->
    parsed (children d) -> parsed r -> parsed (VDict d :: r).

(** no two adjacent texts with the same style *)
Definition separated (l : list val) : Prop :=
  forall a d1 d2 b, l = a ++ VDict d1 :: VDict d2 :: b -> of_type "text" d1 -> of_type "text" d2 -> get k_styles d1 <> get k_styles d2.

(** the visible characters of the texts of a list, in order *)
Definition content_of (v : val) : str :=
  match v with VDict d => if is_str (get k_type d) "text" then match get k_content d with VStr s => s | _ => [] end else [] | _ => [] end.
Definition visible (l : list val) : str := filter (fun c => negb (N.eqb c 32)) (concat (map content_of l)).

(** [v'] is [v] up to joining texts in its title (or, for a table row, below
    it). *)
Definition similar (v v' : val) : Prop :=
  v = v' \/
  (exists l l' b, v = VList l /\ v' = VList l' /\ tidy b l l') \/
  (exists d l l', v = VDict d /\ get k_title d = VList l /\ tidy true l l' /\ v' = VDict (set k_title (VList l') d)).
Definition nontext_event (e : event) : bool := negb (has_type "text" e).
Definition nontext (v : val) : bool := negb (is_text v).
