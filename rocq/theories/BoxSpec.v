(** Vocabulary for C40, C78-C79: box commands and saved boxes. *)
From Coq Require Import List NArith PeanoNat Bool String.
From Verif Require Import PyStr Json DelimSpec CommandSpec.
Import ListNotations. Notation length := List.length. Open Scope list_scope.

(** The box commands and their arguments: an opening brace stands for a required,
    an opening bracket for an optional argument; the text is the last one. *)
Definition box_commands : list (str * str) :=
  [(lit "fbox", lit "{"); (lit "hbox", lit "{"); (lit "vbox", lit "{"); (lit "mbox", lit "{");
   (lit "parbox", lit "[[[{{"); (lit "makebox", lit "[[{"); (lit "framebox", lit "[[{"); (lit "raisebox", lit "{[[{");
   (lit "colorbox", lit "{{"); (lit "fcolorbox", lit "{{{"); (lit "scalebox", lit "{{"); (lit "pbox", lit "{{");
   (lit "resizebox", lit "{{{"); (lit "rotatebox", lit "{{"); (lit "adjustbox", lit "{{")].

(** The name [x] of a box, written as {\x}, {x} or \x. *)
Inductive spelled (x : str) : str -> str -> Prop :=
| sp_group : forall a b rest, blank a -> blank b -> spelled x (lit "{" ++ a ++ [c_bs] ++ x ++ b ++ lit "}") rest
| sp_plain : forall a b rest, blank a -> blank b -> spelled x (lit "{" ++ a ++ x ++ b ++ lit "}") rest
| sp_bare : forall rest, word_end rest -> spelled x ([c_bs] ++ x) rest.

(** Commands on saved boxes: [written c text n] says that [text] starts with a
    spelling of [c] of length [n]. *)
Inductive command := Declare (x : str) | Save (x b : str) | Use (x : str).
Inductive written : command -> str -> nat -> Prop :=
| w_declare : forall k ws x s rest, In k [lit "\newsavebox"; lit "\newbox"] -> blank ws -> word x -> spelled x s rest ->
    written (Declare x) (k ++ ws ++ s ++ rest) (length (k ++ ws ++ s))
| w_save : forall k ws x s rest b n, In k [lit "\sbox"; lit "\savebox"] -> blank ws -> word x -> spelled x s rest -> group_at c_lb c_rb rest b n ->
    written (Save x b) (k ++ ws ++ s ++ rest) (length (k ++ ws ++ s) + n)
| w_set : forall ws x s ws2 rest b n, blank ws -> word x -> spelled x s (ws2 ++ lit "=" ++ rest) -> blank ws2 -> group_at c_lb c_rb rest b n ->
    written (Save x b) (lit "\setbox" ++ ws ++ s ++ ws2 ++ lit "=" ++ rest) (length (lit "\setbox" ++ ws ++ s ++ ws2 ++ lit "=") + n)
| w_use : forall ws x s rest, blank ws -> word x -> spelled x s rest ->
    written (Use x) (lit "\usebox" ++ ws ++ s ++ rest) (length (lit "\usebox" ++ ws ++ s)).

(** What box [x] contains after a history (newest command first). *)
Inductive holds (x : str) : list command -> option str -> Prop :=
| ho_none : holds x [] None
| ho_declare : forall h, holds x (Declare x :: h) None
| ho_save : forall b h, holds x (Save x b :: h) (Some b)
| ho_other : forall c h o, c <> Declare x -> (forall b, c <> Save x b) -> holds x h o -> holds x (c :: h) o.

(** A processed text as it is kept in a box: strings become text tokens. *)
Definition kept (v : val) : val :=
  match v with VStr s => VDict [(lit "type", VStr (lit "text")); (lit "content", VStr s)] | _ => v end.
(** [answers p h cs ns out]: after the history [h], commands [cs] of lengths [ns] are all
    consumed exactly; a use yields what its box holds, other commands yield nothing. *)
Inductive answers (p : str -> val) : list command -> list command -> list nat -> list (res (val * nat)) -> Prop :=
| an_nil : forall h, answers p h [] [] []
| an_use : forall h x o cs n ns out, holds x h o -> answers p (Use x :: h) cs ns out ->
    answers p h (Use x :: cs) (n :: ns) (Ok (match o with Some b => kept (p b) | None => VNone end, n) :: out)
| an_other : forall h c cs n ns out, (forall x, c <> Use x) -> answers p (c :: h) cs ns out ->
    answers p h (c :: cs) (n :: ns) (Ok (VNone, n) :: out).

(** What a box command yields for the processed text [v]: a string becomes a text
    token, a group is replaced by its content, anything else is passed on. *)
Inductive yields : val -> val -> Prop :=
| yi_text : forall s, yields (VStr s) (VDict [(lit "type", VStr (lit "text")); (lit "content", VStr s)])
| yi_group : forall d c, lookup (lit "type") d = Some (VStr (lit "group")) -> lookup (lit "content") d = Some c -> yields (VDict d) c
| yi_dict : forall d, lookup (lit "type") d <> Some (VStr (lit "group")) -> yields (VDict d) (VDict d)
| yi_list : forall l, yields (VList l) (VList l).
