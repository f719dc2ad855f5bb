(** Vocabulary for C80: boxes as values. *)
From Coq Require Import List NArith PeanoNat Bool String.
From Verif Require Import PyStr Json BuilderModel TokensModel AliasModel.
Import ListNotations. Notation length := List.length. Open Scope list_scope.

(** A token list and whether its last token was put there by a use of a box. *)
Definition flagged := (list dict * bool)%type.
(** [d] is added to a list; [boxed] tells that [d] comes from a box.  A token is
    appended, dropped (an empty group) or merged into the last token, but never
    into one that came from a box (unless that changes nothing). *)
Inductive pushed (boxed : bool) (d : dict) (sp : bool) : flagged -> flagged -> Prop :=
| pu_append : forall ts f, add_dict d ts sp = Ok (ts ++ [d]) -> pushed boxed d sp (ts, f) (ts ++ [d], boxed)
| pu_drop : forall ts f, add_dict d ts sp = Ok ts -> pushed boxed d sp (ts, f) (ts, f)
| pu_merge : forall ts ts', add_dict d ts sp = Ok ts' -> length ts' = length ts -> pushed boxed d sp (ts, false) (ts', false).
Inductive pushed_all : list dict -> flagged -> flagged -> Prop :=
| pa_nil : forall s, pushed_all [] s s
| pa_cons : forall d l s s1 s2, pushed true d false s s1 -> pushed_all l s1 s2 -> pushed_all (d :: l) s s2.
Inductive labelled (s : str) : flagged -> flagged -> Prop :=
| la_last : forall ts d d', d <> [] -> with_label d s = Ok d' -> labelled s (ts ++ [d], false) (ts ++ [d'], false)
| la_first : labelled s ([], false) ([label_token s], false).

(** The intended meaning: a box is a value, a use adds the tokens it held when it was
    saved.  [means bx l s bx' s']. *)
Inductive means : tables dict -> list act -> flagged -> tables dict -> flagged -> Prop :=
| me_nil : forall bx s, means bx [] s bx s
| me_add : forall bx d sp l s s1 bx' s', pushed false d sp s s1 -> means bx l s1 bx' s' -> means bx (AAdd d sp :: l) s bx' s'
| me_label : forall bx x l s s1 bx' s', labelled x s s1 -> means bx l s1 bx' s' -> means bx (ALabel x :: l) s bx' s'
| me_save : forall bx x body l s bx1 content f bx' s', means bx body ([], false) bx1 (content, f) ->
    means ((x, Some content) :: bx1) l s bx' s' -> means bx (ASave x body :: l) s bx' s'
| me_declare : forall bx x l s bx' s', means ((x, None) :: bx) l s bx' s' -> means bx (ADeclare x :: l) s bx' s'
| me_use : forall bx x content l s s1 bx' s', tget x bx = Some content -> pushed_all content s s1 -> means bx l s1 bx' s' -> means bx (AUse x :: l) s bx' s'
| me_unknown : forall bx x l s bx' s', tget x bx = None -> means bx l s bx' s' -> means bx (AUse x :: l) s bx' s'.
