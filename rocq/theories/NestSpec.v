(** How sections and paragraphs nest in an organised document. *)
From Coq Require Import List NArith ZArith PeanoNat Lia Bool String.
From Verif Require Import PyStr Json BuilderModel BuilderSpec.
Import ListNotations.
Notation length := List.length.
Notation concat := List.concat.
Open Scope list_scope.

(** What a token is, with its level (if it has an integer one). *)
Inductive kind := KSection (level : option Z) | KParagraph (level : option Z) | KAppendix | KBibliography | KPlain.
Definition level_of (d : dict) : option Z := match get k_level d with VInt z => Some z | _ => None end.
Definition kind_of_dict (d : dict) : kind :=
  if is_str (get k_type d) "appendix" then KAppendix
  else if is_str (get k_type d) "bibliography" then KBibliography
  else if is_str (get k_type d) "section" then KSection (level_of d)
  else if is_str (get k_type d) "paragraph" then KParagraph (level_of d)
  else KPlain.
Definition kind_of (v : val) : kind := match v with VDict d => kind_of_dict d | _ => KPlain end.

(** [a] is deeper than [b]; no claim when a level is missing. *)
Definition deeper (a b : option Z) : Prop := match a, b with Some x, Some y => (x > y)%Z | _, _ => True end.
Definition not_deeper (a b : option Z) : Prop := match a, b with Some x, Some y => (x <= y)%Z | _, _ => True end.
Definition closing (k : kind) : Prop := k = KAppendix \/ k = KBibliography.

(** A child of a section is a deeper section, a paragraph or other content; a
    child of a paragraph is a deeper paragraph or other content. *)
Definition child_ok (parent child : kind) : Prop :=
  match parent, child with
  | KSection z, KSection z' => deeper z' z
  | KSection _, (KAppendix | KBibliography) => False
  | KParagraph z, KParagraph z' => deeper z' z
  | KParagraph _, (KSection _ | KAppendix | KBibliography) => False
  | _, _ => True
  end.
(** After a section comes, among its siblings, only a section that is not deeper
    (or the appendix or bibliography): everything else that follows is inside
    it.  After a paragraph no plain content; and outside sections ([in_section]
    = false) no deeper paragraph. *)
Definition next_ok (in_section : bool) (a b : kind) : Prop :=
  match a, b with
  | KSection z, KSection z' => not_deeper z' z
  | KSection _, (KParagraph _ | KPlain) => False
  | KParagraph z, KParagraph z' => in_section = false -> not_deeper z' z
  | KParagraph _, KPlain => False
  | _, _ => True
  end.
Inductive chain (R : kind -> kind -> Prop) : list kind -> Prop :=
| ch_nil : chain R []
| ch_one : forall a, chain R [a]
| ch_cons : forall a b r, R a b -> chain R (b :: r) -> chain R (a :: b :: r).
(** nothing but appendices and bibliographies after an appendix *)
Definition appendix_last (l : list kind) : Prop := forall a b, l = a ++ KAppendix :: b -> Forall closing b.
Definition is_section (k : kind) : bool := match k with KSection _ => true | _ => false end.

(** [nested in_section l]: the forest [l] (the children of a section when
    [in_section]) is nested by level, at every depth. *)
Inductive nested : bool -> list val -> Prop :=
| nested_intro : forall b l, chain (next_ok b) (map kind_of l) -> appendix_last (map kind_of l) -> Forall inside l -> nested b l
with inside : val -> Prop :=
| in_leaf : forall v, ~ is_dict v -> inside v
| in_tok : forall d, Forall (child_ok (kind_of_dict d)) (map kind_of (children d)) ->
    nested (is_section (kind_of_dict d)) (children d) -> inside (VDict d).

(** Nothing but appendices and bibliographies after an appendix environment with
    content, and after a bibliography that follows an appendix ([seen]) in the
    same list. *)
Definition closer (v : val) : Prop := exists d, v = VDict d /\ (of_type "appendix" d \/ of_type "bibliography" d).
Inductive calm : bool -> list val -> Prop :=
| calm_nil : forall seen, calm seen []
| calm_leaf : forall seen v r, ~ is_dict v -> calm seen r -> calm seen (v :: r)
| calm_tok : forall seen seen' d r,
    (of_type "appendix" d -> seen' = true) -> (~ of_type "appendix" d -> seen' = seen) ->
    (of_type "appendix" d -> children d <> [] -> Forall closer r) ->
    (of_type "bibliography" d -> seen = true -> Forall closer r) ->
    calm false (children d) -> calm seen' r -> calm seen (VDict d :: r).
