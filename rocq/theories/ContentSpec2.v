(** Specification of the remaining content commands: references and links,
    footnotes and captions, graphics, citation aliases, headings and files. *)
From Coq Require Import List NArith ZArith PeanoNat Bool String.
From Verif Require Import PyStr Json DelimSpec ContentSpec.
Import ListNotations. Notation length := List.length. Notation concat := List.concat. Open Scope list_scope.

(** [h] reads exactly [cmd] in front of any [rest] and gives [v]; its state is [d] afterwards. *)
Definition takes {A : Type} (h : str -> res (A * (val * nat))) (cmd rest : str) (d : A) (v : val) : Prop :=
  h (cmd ++ rest) = Ok (d, (v, length cmd)).
Definition group (s : str) : str := [c_lb] ++ s ++ [c_rb].
Definition token (ty : string) (fields : dict) : val := VDict ((lit "type", VStr (lit ty)) :: fields).
Definition field (name : string) (v : val) : str * val := (lit name, v).
(** a text that can stand in braces before a closing brace is looked for *)
Definition flat (s : str) : Prop := ~ In c_rb s.

(** decimal digits and their number *)
Definition digits (ds : str) : Prop := ds <> [] /\ forall x, In x ds -> (48 <= x <= 57)%N.
Definition value (ds : str) : nat := fold_left (fun n x => 10 * n + (N.to_nat x - 48)) ds 0.
(** The options [o] name page [n]: the first "page=" with a digit behind it
    has the digits of [n] behind it. *)
Definition names_page (o : str) (n : nat) : Prop :=
  exists a ds b, o = a ++ lit "page=" ++ ds ++ b /\ digits ds /\ value ds = n /\
    (forall x b', b = x :: b' -> ~ (48 <= x <= 57)%N) /\
    (forall a' x q, o = a' ++ lit "page=" ++ x :: q -> (48 <= x <= 57)%N -> length a <= length a').
Definition no_page (o : str) : Prop := forall a x q, o = a ++ lit "page=" ++ x :: q -> ~ (48 <= x <= 57)%N.
Definition page_field (p : option nat) : dict := match p with Some n => [field "page" (VInt (Z.of_nat n))] | None => [] end.
Definition option_page (o : option str) (p : option nat) : Prop :=
  match o, p with
  | Some o, Some n => names_page o n
  | Some o, None => no_page o
  | None, _ => p = None
  end.

(** the last text defined for a key *)
Fixpoint latest (k : str) (defs : list (str * str)) : option str :=
  match defs with
  | [] => None
  | (k', v) :: r => match latest k r with Some w => Some w | None => if str_eqb k k' then Some v else None end
  end.
Definition alias_citation (defs : list (str * str)) (k : str) : val :=
  token "citation" (field "content" (VList [VStr k]) ::
    match latest k defs with Some (x :: v) => [field "title" (VStr (x :: v))] | _ => [] end).
(** one citation alone, several as a list *)
Definition one_or_list (l : list val) : val := match l with [v] => v | _ => VList l end.
(** The options [o] name the pages [ps], in braces or not, at their first "pages=". *)
Definition page_chars (s : str) : Prop := forall x, In x s -> (48 <= x <= 57)%N \/ In x (lit "-,").
Definition names_pages (o ps : str) : Prop :=
  ps <> [] /\ page_chars ps /\
  exists a b, (forall a' q, o = a' ++ lit "pages=" ++ q -> length a <= length a') /\
    (o = a ++ lit "pages=" ++ group ps ++ b \/
     o = a ++ lit "pages=" ++ ps ++ b /\ (forall x b', b = x :: b' -> ~ page_chars [x])).
Definition pages_field (p : option str) : dict := match p with Some ps => [field "pages" (VStr ps)] | None => [] end.
Definition option_pages (o p : option str) : Prop :=
  match o, p with
  | Some o, Some ps => names_pages o ps
  | Some o, None => forall a q, o <> a ++ lit "pages=" ++ q
  | None, _ => p = None
  end.
