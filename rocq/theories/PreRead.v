(** C88: what the preprocessor makes of a document, read from left to right.  The
    components are arbitrary; this file does not mention the loop. *)
From Coq Require Import List NArith PeanoNat Bool String.
From Verif Require Import PyStr Json DelimSpec CommandSpec ParseRead PreModel PreSpec.
Import ListNotations. Notation length := List.length. Open Scope list_scope.

(** The text [w] ends before [d]: a delimiter, or a backquote. *)
Definition stops (w d : str) : Prop := delimits w d \/ exists r, d = c_tick :: r.
(** A place where the components are asked: a delimiter, a backquote, or a brace at
    the start of what is left. *)
Definition asked (d : str) : Prop := stops [] d \/ exists r, d = c_lb :: r.
Definition wordy (b : bool) (w : str) : Prop := inert b w /\ ~ In c_tick w.

Section Preprocessed.
Variable St : Type.
Variable math : str -> nat.
Variable define : St -> str -> res (definition St).
Variable usepackage : St -> str -> res (St * nat).
Variable format : str -> option (str * nat).
Variable expand : St -> str -> res (option (str * nat)).
Variable if_else : St -> str -> res (option (str * nat)).

(** no formula starts at [d], which is not an \addto either; [t] is [d] with its quotes converted *)
Definition no_formula (d t : str) : Prop := asked d /\ math d = 0 /\ (forall r, d <> lit "\addto" ++ r) /\ quotes_converted d t.
(** no definition: [s1] is the state afterwards *)
Definition no_definition (s : St) (t : str) (s1 : St) : Prop := (define s t = Ok DNone /\ s1 = s) \/ define s t = Ok (DTake s1 0).
(** neither a definition nor a package: [s2] is the state afterwards *)
Definition not_declared (s : St) (t : str) (s2 : St) : Prop := exists s1, no_definition s t s1 /\ usepackage s1 t = Ok (s2, 0).
Definition silent (x : option (str * nat)) : Prop := x = None \/ exists b, x = Some (b, 0).

Inductive preprocessed : St -> str -> St -> str -> Prop :=
| pp_end : forall s w, wordy false w -> preprocessed s w s w
(** text is kept *)
| pp_text : forall s w d s' o, w <> [] -> wordy false w -> stops w d -> preprocessed s d s' o -> preprocessed s (w ++ d) s' (w ++ o)
(** a formula is kept, with the text up to the next delimiter *)
| pp_formula : forall s f w d s' o, asked (f ++ w ++ d) -> (forall r, f ++ w ++ d <> lit "\addto" ++ r) -> f <> [] -> math (f ++ w ++ d) = length f ->
    wordy true w -> stops (95%N :: w) d -> preprocessed s d s' o -> preprocessed s (f ++ w ++ d) s' (f ++ w ++ o)
| pp_formula_end : forall s f w, asked (f ++ w) -> (forall r, f ++ w <> lit "\addto" ++ r) -> f <> [] -> math (f ++ w) = length f -> wordy true w ->
    preprocessed s (f ++ w) s (f ++ w)
(** a definition is removed, and its state is used from there on; one that is skipped is kept *)
| pp_define : forall s d def rest s1 s' o, no_formula d (def ++ rest) -> def <> [] -> define s (def ++ rest) = Ok (DTake s1 (length def)) ->
    preprocessed s1 rest s' o -> preprocessed s d s' o
| pp_skip : forall s d def rest s' o, no_formula d (def ++ rest) -> define s (def ++ rest) = Ok (DSkip (length def)) ->
    preprocessed s rest s' o -> preprocessed s d s' (def ++ o)
(** a package declaration is removed *)
| pp_package : forall s d t decl rest s1 s2 s' o, no_formula d t -> t = decl ++ rest -> no_definition s t s1 -> decl <> [] -> usepackage s1 t = Ok (s2, length decl) ->
    preprocessed s2 rest s' o -> preprocessed s d s' o
(** formatting, macros, conditionals: what is found is replaced, and the replacement is read again *)
| pp_format : forall s d t use rest s2 b s' o, no_formula d t -> t = use ++ rest -> not_declared s t s2 -> use <> [] -> format t = Some (b, length use) ->
    preprocessed s2 (b ++ rest) s' o -> preprocessed s d s' o
| pp_macro : forall s d t use rest s2 b s' o, no_formula d t -> t = use ++ rest -> not_declared s t s2 -> use <> [] -> silent (format t) -> expand s2 t = Ok (Some (b, length use)) ->
    preprocessed s2 (b ++ rest) s' o -> preprocessed s d s' o
| pp_if : forall s d t use rest s2 x b s' o, no_formula d t -> t = use ++ rest -> not_declared s t s2 -> use <> [] -> silent (format t) -> expand s2 t = Ok x -> silent x ->
    if_else s2 t = Ok (Some (b, length use)) -> preprocessed s2 (b ++ rest) s' o -> preprocessed s d s' o
(** nobody: one character is kept *)
| pp_char : forall s d c rest s2 x y s' o, no_formula d (c :: rest) -> not_declared s (c :: rest) s2 -> silent (format (c :: rest)) -> expand s2 (c :: rest) = Ok x -> silent x ->
    if_else s2 (c :: rest) = Ok y -> silent y -> preprocessed s2 rest s' o -> preprocessed s d s' (c :: o).
End Preprocessed.
