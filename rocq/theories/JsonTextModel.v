(** Model of the writer that turns the data of an answer into text:
    json.dumps(data, ensure_ascii=False), tex_reader.py:151-156, for the values
    that occur there (json/encoder.py of CPython 3.11 without indentation). *)
From Coq Require Import List NArith ZArith PeanoNat Bool String.
From Verif Require Import PyStr Json.
Import ListNotations. Notation length := List.length. Notation concat := List.concat. Open Scope list_scope.

(** '{0:x}'.format for one digit *)
Definition hex_char (n : N) : ch := (if n <? 10 then 48 + n else 87 + n)%N.
(** json/encoder.py ESCAPE, ESCAPE_DCT and py_encode_basestring: control
    characters, the quote and the backslash are escaped, nothing else. *)
Definition escape_char (x : ch) : str :=
  (if x =? 34 then [92; 34] else if x =? 92 then [92; 92] else if x =? 10 then [92; 110] else if x =? 13 then [92; 114]
   else if x =? 9 then [92; 116] else if x =? 12 then [92; 102] else if x =? 8 then [92; 98]
   else if x <? 32 then [92; 117; 48; 48; hex_char (x / 16); hex_char (x mod 16)] else [x])%N.
Definition write_str (s : str) : str := [34%N] ++ concat (map escape_char s) ++ [34%N].
(** int.__repr__ *)
Definition write_int (z : Z) : str :=
  match z with
  | Zneg p => 45%N :: str_of_nat (Pos.to_nat p)
  | _ => str_of_nat (Z.to_nat z)
  end.
(** JSONEncoder.iterencode with the separators ", " and ": "; the keys of the data are strings *)
Fixpoint write (v : val) : str :=
  match v with
  | VNone => lit "null"
  | VBool true => lit "true"
  | VBool false => lit "false"
  | VInt z => write_int z
  | VStr s => write_str s
  | VList l => lit "[" ++ join (lit ", ") (map write l) ++ lit "]"
  | VDict d => lit "{" ++ join (lit ", ") (map (fun kv => match kv with (k, x) => write_str k ++ lit ": " ++ write x end) d) ++ lit "}"
  end.
(** tex_reader.py:151-156 *)
Definition answer_text (tokens : list val) (color_map : dict) : str :=
  write (VDict [(lit "tokens", VList tokens); (lit "color_map", VDict color_map)]).
(** write_text(..., encoding="utf-8") is possible when no surrogate occurs; it
    raises UnicodeEncodeError, a ValueError, otherwise. *)
Definition surrogate (x : ch) : bool := ((55296 <=? x) && (x <=? 57343))%N.
Definition encodable (s : str) : bool := forallb (fun x => negb (surrogate x)) s.
