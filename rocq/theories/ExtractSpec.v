(** Specification vocabulary for archive extraction, independent of the model's path functions. *)
From Coq Require Import List NArith ZArith PeanoNat Lia Bool String.
From Verif Require Import PyStr RegexLocal DelimSpec ExtractModel Placeholder PlaceSpec.
Import ListNotations.
Notation length := List.length.
Notation concat := List.concat.
Open Scope list_scope.

(** A name that can occur as a directory entry. *)
Definition entry_name (c : str) : Prop := c <> [] /\ c <> lit "." /\ c <> lit ".." /\ ~ In c_slash c.

(** Reading the components [comps] of a relative path from directory [d], lexically:
    an empty or [.] component stays, [..] goes up (and stays at the root), any other name goes down. *)
Inductive lexical : loc -> list str -> loc -> Prop :=
| lx_end : forall d, lexical d [] d
| lx_stay : forall d c r e, c = [] \/ c = lit "." -> lexical d r e -> lexical d (c :: r) e
| lx_up : forall d x r e, lexical d r e -> lexical (d ++ [x]) (lit ".." :: r) e
| lx_top : forall r e, lexical [] r e -> lexical [] (lit ".." :: r) e
| lx_down : forall d c r e, c <> [] -> c <> lit "." -> c <> lit ".." -> lexical (d ++ [c]) r e -> lexical d (c :: r) e.

(** [p] lies strictly below directory [d]. *)
Definition below (d p : loc) : Prop := exists r, r <> [] /\ p = d ++ r.

(** [d] is an empty directory, reached from the root through real directories only. *)
Definition fresh_dir (f : fs) (d : loc) : Prop :=
  (forall a b, d = a ++ b -> f a = Some NDir) /\ (forall p, below d p -> f p = None).

(** A symbolic link that cannot lead upwards: relative and without a [..] component. *)
Definition inner_target (t : str) : Prop := (forall r, t <> c_slash :: r) /\ ~ In (lit "..") (split_char c_slash t).
Definition harmless (m : member) : Prop := match m_kind m with KSym t => inner_target t | _ => True end.

(** The first file, in walk order, that has the extension .tex, can be read and whose
    text satisfies [main]. *)
Definition first_main (main : str -> Prop) (walked : list (str * list (str * option str))) (root file : str) : Prop :=
  exists dirs1 fl1 c fl2 dirs2,
    walked = dirs1 ++ (root, fl1 ++ (file, Some c) :: fl2) :: dirs2 /\
    (exists base, file = base ++ lit ".tex") /\ main c /\
    (forall d f t, In (f, Some t) fl1 \/ (In d dirs1 /\ In (f, Some t) (snd d)) ->
       (exists base, f = base ++ lit ".tex") -> ~ main t).
Definition no_main (main : str -> Prop) (walked : list (str * list (str * option str))) : Prop :=
  forall d f t, In d walked -> In (f, Some t) (snd d) -> (exists base, f = base ++ lit ".tex") -> ~ main t.

(** Some line of the text has one of the two markers outside its comment. *)
Definition marked_main (text : str) : Prop :=
  exists lines line cut, lines_of text lines /\ In line lines /\ uncommented line cut /\
    (occurs (lit "\documentclass") cut \/ occurs (lit "\begin{document}") cut).
