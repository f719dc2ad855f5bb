(** Model of latex_maps/latex_unicode_converter.py: LaTeX commands and \uXXXX
    sequences turned into characters.

    A Python string is a list of code points, so [chr] is the identity on codes
    up to 0x10FFFF.  The class-level cache (10-20, 71-75) is not modelled: its
    content never changes, so the patterns here are what every instance uses. *)
From Coq Require Import List NArith ZArith PeanoNat Lia Bool String.
From Verif Require Import PyStr Regex UnicodeTable.
Import ListNotations.
Notation length := List.length.
Notation concat := List.concat.
Open Scope list_scope.

(** latex_unicode_converter.py 46, 47: the classes [a-zA-Z]; every key of the
    table is ASCII, so [isalpha] on the last character is the same test. *)
Definition alpha (x : ch) : bool := in_range 97 122 x || in_range 65 90 x.
(** latex_unicode_converter.py 6 [0-9a-fA-F] *)
Definition hexa (x : ch) : bool := in_range 48 57 x || in_range 97 102 x || in_range 65 70 x.

(** latex_unicode_converter.py 46: [escaped[-1].isalpha() or escaped[-1] == "@"];
    escaping changes neither a letter nor "@". *)
Definition word_like (k : str) : bool :=
  match rev k with x :: _ => alpha x || N.eqb x 64 | [] => false end.

(** latex_unicode_converter.py 44-47: the pattern of one key. *)
Definition key_re (k : str) : re :=
  if word_like k
  then RAlt (RSeq (rstr k) (rstr (lit "{}"))) (RSeq (rstr k) (RAhead true (RChr alpha)))
  else rstr k.

(** ["font" in cmd] *)
Fixpoint contains (p s : str) : bool :=
  startswith s p || match s with [] => false | _ :: r => contains p r end.

(** latex_unicode_converter.py 48-57: which list a key goes to. *)
Inductive kind := Kensuremath | Ktext | Kmath | Kfont | Kother.
Definition kind_eqb (a b : kind) : bool :=
  match a, b with
  | Kensuremath, Kensuremath | Ktext, Ktext | Kmath, Kmath | Kfont, Kfont | Kother, Kother => true
  | _, _ => false
  end.
Definition kind_of (k : str) : kind :=
  if startswith k (lit "\ensuremath") then Kensuremath
  else if startswith k (lit "\text") then Ktext
  else if startswith k (lit "\math") then Kmath
  else if contains (lit "font") k then Kfont
  else Kother.

(** latex_unicode_converter.py 39-41: other keys are left out. *)
Definition listed (k : str) : bool := startswith k (lit "\") || startswith k (lit "{").
Definition keys_of (c : kind) : list str :=
  filter (fun k => listed k && kind_eqb (kind_of k) c) (map fst unicode_table).

(** latex_unicode_converter.py 6 UNICODE_PATTERN *)
Definition hex_re : re := RChr hexa.
Definition escape_re : re :=
  RSeq (rstr (lit "\u"))
    (RGrp 1 (RSeq hex_re (RSeq hex_re (RSeq hex_re (RSeq hex_re (ropt (RSeq hex_re (ropt hex_re)))))))).

(** [int(s, 16)] on hexadecimal digits *)
Definition hex_digit (x : ch) : N :=
  if in_range 48 57 x then x - 48 else if in_range 97 102 x then x - 87 else x - 55.
Definition hex_int (s : str) : N := fold_left (fun n x => 16 * n + hex_digit x)%N s 0%N.

(** latex_unicode_converter.py 82-87: [chr] raises ValueError above 0x10FFFF. *)
Definition escape_value (text : str) (m : mobj) : str :=
  match m_group text 1 m with
  | Some ds => if N.leb (hex_int ds) 1114111 then [hex_int ds] else strip (m_group0 text m)
  | None => strip (m_group0 text m)
  end.

(** the dictionary [_latex2str], latex_unicode_converter.py 22-27 *)
Fixpoint assoc (k : str) (t : list (str * str)) : option str :=
  match t with
  | [] => None
  | (k', v) :: r => if str_eqb k k' then Some v else assoc k r
  end.

(** latex_unicode_converter.py 81, 89-91: [handle_match] for a command. *)
Definition command_value (text : str) (m : mobj) : str :=
  let c := strip (m_group0 text m) in
  let c := if endswith c (lit "{}") then strip (firstn (length c - 2) c) else c in
  match assoc c unicode_table with Some v => v | None => c end.

(** latex_unicode_converter.py 60-66 and 94-95: one list of patterns, joined
    by "|"; an empty list is not compiled and its round does not exist. *)
Definition round_of (c : kind) (text : str) : str :=
  match keys_of c with
  | [] => text
  | ks => re_sub (ralt (map key_re ks)) (command_value text) text
  end.

(** latex_unicode_converter.py 77-97 [convert]: the rounds in the order of the
    dictionary [patterns] (31-38). *)
Definition convert (text : str) : str :=
  let text := re_sub escape_re (escape_value text) text in
  fold_left (fun t c => round_of c t) [Kensuremath; Ktext; Kmath; Kfont; Kother] text.
