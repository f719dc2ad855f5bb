(** Model of utils/encoding.py: the encoding of a file is guessed from its first
    10000 bytes and the file is read as text.

    A file is the list of its bytes.  chardet is an arbitrary function from the
    sample to an encoding name (or None) and whether its confidence is at least
    0.5.  The decoders of utf-8, latin-1 and cp1252 are CPython's; any other
    codec is an arbitrary function, and [None] when Python has no such codec.
    Reading the file twice gives the same bytes. *)
From Coq Require Import List NArith PeanoNat Lia Bool String.
From Verif Require Import PyStr.
Import ListNotations.
Notation length := List.length.
Open Scope list_scope.

Definition bytes := list N.

(** * CPython's UTF-8 decoder *)
Definition cont (b : N) : bool := ((128 <=? b) && (b <=? 191))%N.
(** the second byte of a sequence of three or four that begins with [a] *)
Definition second (a b : N) : bool :=
  (cont b && (if a =? 224 then 160 <=? b else if a =? 237 then b <=? 159
              else if a =? 240 then 144 <=? b else if a =? 244 then b <=? 143 else true))%N.
(** One character and the bytes it takes, or the number of bytes that one
    replacement character stands for. *)
Inductive piece := Good (c : ch) (n : nat) | Bad (n : nat).
Definition first_piece (a : N) (r : bytes) : piece :=
  (if a <? 128 then Good a 1
   else if a <? 194 then Bad 1
   else if a <? 224 then
     match r with
     | b :: _ => if cont b then Good ((a - 192) * 64 + (b - 128)) 2 else Bad 1
     | [] => Bad 1
     end
   else if a <? 240 then
     match r with
     | b :: r => if second a b then
                   match r with
                   | c :: _ => if cont c then Good ((a - 224) * 4096 + (b - 128) * 64 + (c - 128)) 3 else Bad 2
                   | [] => Bad 2
                   end
                 else Bad 1
     | [] => Bad 1
     end
   else if a <? 245 then
     match r with
     | b :: r => if second a b then
                   match r with
                   | c :: r => if cont c then
                                 match r with
                                 | d :: _ => if cont d then Good ((a - 240) * 262144 + (b - 128) * 4096 + (c - 128) * 64 + (d - 128)) 4 else Bad 3
                                 | [] => Bad 3
                                 end
                               else Bad 2
                   | [] => Bad 2
                   end
                 else Bad 1
     | [] => Bad 1
     end
   else Bad 1)%N.
(** errors="strict": [None] is a UnicodeDecodeError *)
Fixpoint utf8_go (fuel : nat) (data : bytes) : option str :=
  match fuel, data with
  | _, [] => Some []
  | O, _ => None
  | S f, a :: r =>
      match first_piece a r with
      | Good c n => option_map (cons c) (utf8_go f (skipn (n - 1) r))
      | Bad _ => None
      end
  end.
Definition utf8 (data : bytes) : option str := utf8_go (length data) data.
(** errors="replace" *)
Fixpoint utf8_replace_go (fuel : nat) (data : bytes) : str :=
  match fuel, data with
  | _, [] => []
  | O, _ => []
  | S f, a :: r =>
      match first_piece a r with
      | Good c n => c :: utf8_replace_go f (skipn (n - 1) r)
      | Bad n => 65533%N :: utf8_replace_go f (skipn (n - 1) r)
      end
  end.
Definition utf8_replace (data : bytes) : str := utf8_replace_go (length data) data.

(** * One byte, one character *)
Definition latin1 (data : bytes) : option str := Some data.
(** the bytes 0x80 to 0x9F in cp1252; 0 where there is no character *)
Definition cp1252_table : list N :=
  [8364; 0; 8218; 402; 8222; 8230; 8224; 8225; 710; 8240; 352; 8249; 338; 0; 381; 0;
   0; 8216; 8217; 8220; 8221; 8226; 8211; 8212; 732; 8482; 353; 8250; 339; 0; 382; 376]%N.
Definition cp1252_char (b : N) : option N :=
  if ((128 <=? b) && (b <=? 159))%N
  then match nth (N.to_nat b - 128) cp1252_table 0%N with 0%N => None | x => Some x end
  else Some b.
Fixpoint cp1252 (data : bytes) : option str :=
  match data with
  | [] => Some []
  | b :: r => match cp1252_char b, cp1252 r with Some c, Some t => Some (c :: t) | _, _ => None end
  end.

(** The universal newlines of [open] in text mode. *)
Fixpoint newlines (s : str) : str :=
  match s with
  | [] => []
  | x :: r =>
      if N.eqb x 13 then match r with y :: _ => if N.eqb y 10 then newlines r else 10%N :: newlines r | [] => [10%N] end
      else x :: newlines r
  end.

Section Detector.
Variable chardet : bytes -> option str * bool.
Variable other_codec : str -> option (bytes -> option str).

(** encoding.py:33-38 *)
Definition encoding_map (e : str) : str :=
  if str_eqb e (lit "ascii") then lit "utf-8"
  else if str_eqb e (lit "ISO-8859-1") then lit "latin-1"
  else if str_eqb e (lit "Windows-1252") then lit "cp1252"
  else e.
(** encoding.py:5-40 *)
Definition detect_encoding (data : bytes) : str :=
  let raw := firstn (N.to_nat 10000) data in
  match raw with
  | [] => lit "utf-8"
  | _ =>
      let '(e, sure) := chardet raw in
      let e := match e with Some e => if sure then e else lit "utf-8" | None => lit "utf-8" end in
      encoding_map e
  end.

Definition codec (name : str) : option (bytes -> option str) :=
  if str_eqb name (lit "utf-8") then Some utf8
  else if str_eqb name (lit "latin-1") then Some latin1
  else if str_eqb name (lit "cp1252") then Some cp1252
  else other_codec name.

(** encoding.py:43-65; [None] is the LookupError of a codec Python does not
    have, which is not caught.  Decoding with errors="replace" cannot fail, so
    lines 62-65 are never reached. *)
Definition read_file (data : bytes) : option str :=
  match codec (detect_encoding data) with
  | None => None
  | Some d =>
      match d data with
      | Some s => Some (newlines s)
      | None => Some (newlines (utf8_replace data))
      end
  end.
End Detector.
