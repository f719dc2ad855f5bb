(** Specification vocabulary for conditionals: a text as a list of items. *)
From Coq Require Import List NArith PeanoNat Bool.
From Verif Require Import PyStr IfModel.
Import ListNotations.

(** a piece of text, or one of the four markers with its text (and, for \elsif,
    the captured condition) *)
Inductive item := Txt (s : str) | Open (s : str) | Close (s : str) | Else (s : str) | Elsif (s : str) (cond : option str).
Definition item_text (i : item) : str := match i with Txt s | Open s | Close s | Else s | Elsif s _ => s end.
Definition render (l : list item) : str := List.concat (map item_text l).
Definition is_open i := match i with Open _ => true | _ => false end.
Definition is_close i := match i with Close _ => true | _ => false end.
Definition is_else i := match i with Else _ => true | _ => false end.
Definition is_elsif i := match i with Elsif _ _ => true | _ => false end.
Definition is_txt i := match i with Txt _ => true | _ => false end.
Definition condition i : option str := match i with Elsif _ c => c | _ => None end.
(** The search reports the first item of its kind. *)
Fixpoint first_of (kind : item -> bool) (l : list item) (off : nat) : option (nat * nat * option str) :=
  match l with
  | [] => None
  | i :: r => if kind i then Some (off, off + length (item_text i), condition i) else first_of kind r (off + length (item_text i))
  end.
Definition finds (search : msearch) (kind : item -> bool) (items : list item) : Prop :=
  forall before after, items = before ++ after -> search (render after) = first_of kind after 0.
(** The four searches read the text as these items; markers are not empty. *)
Definition reads (S_ E_ L_ X_ : msearch) (items : list item) : Prop :=
  finds S_ is_open items /\ finds E_ is_close items /\ finds L_ is_else items /\ finds X_ is_elsif items /\
  forall i, In i items -> is_txt i = false -> item_text i <> [].
(** A branch: texts and complete conditionals; [inside] conditionals \else and
    \elsif are allowed. *)
Inductive body (inside : bool) : list item -> Prop :=
| b_nil : body inside []
| b_txt : forall s r, body inside r -> body inside (Txt s :: r)
| b_if : forall s s' l r, body true l -> body inside r -> body inside (Open s :: l ++ Close s' :: r)
| b_else : forall s r, inside = true -> body inside r -> body inside (Else s :: r)
| b_elsif : forall s c r, inside = true -> body inside r -> body inside (Elsif s c :: r).
Definition branch := body false.
(** The \elsif alternatives of a conditional: marker, condition, branch. *)
Definition alternative := (str * option str * list item)%type.
Definition alt_items (a : alternative) : list item := Elsif (fst (fst a)) (snd (fst a)) :: snd a.
Definition alternatives (l : list alternative) : list item := List.concat (map alt_items l).
(** what is to be reported of an alternative: its condition and its stripped text *)
Definition alt_value (a : alternative) : option str * str := (snd (fst a), strip (render (snd a))).
(** the conditional opened before [l] is closed within [l] ([level] conditionals are open) *)
Fixpoint closes (level : nat) (l : list item) : bool :=
  match l with
  | [] => false
  | Open _ :: r => closes (S level) r
  | Close _ :: r => Nat.leb level 1 || closes (level - 1) r
  | _ :: r => closes level r
  end.
