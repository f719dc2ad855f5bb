(** Specification vocabulary for the text helpers. *)
From Coq Require Import List NArith PeanoNat Bool String.
From Verif Require Import PyStr DelimSpec TextModel.
Import ListNotations.
Notation length := List.length.
Notation concat := List.concat.
Open Scope list_scope.

(** Reading from left to right, each line-break command becomes one space. *)
Inductive breaks_to_spaces : str -> str -> Prop :=
| bs_nil : breaks_to_spaces [] []
| bs_double : forall s o, breaks_to_spaces s o -> breaks_to_spaces (lit "\\" ++ s) (c_sp :: o)
| bs_newline : forall s o, breaks_to_spaces s o -> breaks_to_spaces (lit "\newline" ++ s) (c_sp :: o)
| bs_other : forall c s o, (forall r, c :: s <> lit "\\" ++ r) -> (forall r, c :: s <> lit "\newline" ++ r) ->
    breaks_to_spaces s o -> breaks_to_spaces (c :: s) (c :: o).

(** The whitespace-separated words of a text. *)
Inductive words_of : str -> list str -> Prop :=
| wo_nil : forall ws, blank ws -> words_of ws []
| wo_cons : forall ws w s l, blank ws -> w <> [] -> (forall x, In x w -> isspace x = false) ->
    (forall x r, s = x :: r -> isspace x = true) -> words_of s l -> words_of (ws ++ w ++ s) (w :: l).


(** Normalised whitespace: every maximal run of spaces, tabs and newlines
    becomes one space, or one newline when it has two newlines or more. *)
Definition gap_char (x : ch) : bool := N.eqb x c_sp || N.eqb x c_tab || N.eqb x c_nl.
Definition newlines (g : str) : nat := length (filter (N.eqb c_nl) g).
Definition starts_gap (s : str) : bool := match s with x :: _ => gap_char x | [] => false end.
Inductive respaced : str -> str -> Prop :=
| rs_nil : respaced [] []
| rs_char : forall x s o, gap_char x = false -> respaced s o -> respaced (x :: s) (x :: o)
| rs_gap : forall g s o, g <> [] -> forallb gap_char g = true -> starts_gap s = false -> respaced s o ->
    respaced (g ++ s) ((if Nat.leb 2 (newlines g) then c_nl else c_sp) :: o).
