(** Model of latex2json/parser/handlers/diacritics.py. *)
From Coq Require Import List NArith PeanoNat Bool String.
From Verif Require Import PyStr Regex Json TexUtilsModel StyleModel.
Import ListNotations. Notation length := List.length. Notation concat := List.concat. Open Scope list_scope.

(** diacritics.py:9-42: the name and the combining character *)
Definition ACCENT_MAP : list (str * ch) :=
  [(lit "'", 769); (lit "`", 768); ([34], 776); (lit "^", 770); (lit "~", 771); (lit "=", 772);
   (lit "c", 807); (lit "H", 779); (lit "k", 808); (lit "b", 817); (lit ".", 775); (lit "d", 803); (lit "r", 778); (lit "u", 774); (lit "v", 780);
   (lit "vec", 8407); (lit "dot", 775); (lit "hat", 770); (lit "check", 780); (lit "breve", 774); (lit "acute", 769); (lit "grave", 768); (lit "tilde", 771); (lit "bar", 773); (lit "ddot", 776);
   (lit "not", 824)]%N.
Definition nonspace : re := RChr (fun x => negb (isspace x)).
(** diacritics.py:45-61; the groups are left out, they are not read *)
Definition alphabetic (key : str) : bool := match key with x :: _ => is_letter x | [] => false end.
Definition accent_pattern (key : str) : re :=
  RSeq (rstr (c_bs :: key))
    (if alphabetic key then
       RAlt (RSeq (rstar rspace) (is_ch c_lb)) (RAlt (RSeq (rplus rspace) nonspace) (RSeq (RAhead true (RChr (fun x => is_letter x || N.eqb x 64))) nonspace))
     else RSeq (rstar rspace) (RAlt (is_ch c_lb) nonspace)).
Section Dia.
(** unicodedata.normalize("NFC", c + accent) *)
Variable nfc : ch -> ch -> str.
(** diacritics.py:67-88; the accent is always one of the table *)
Definition apply_accent (base : str) (accent : ch) : str := match base with [] => [] | x :: r => nfc x accent ++ r end.
(** diacritics.py:99-117 *)
Definition parse_match (text : str) (end_pos : nat) (accent : ch) : str * nat :=
  match nth_error text (end_pos - 1) with
  | Some last_char =>
      if N.eqb last_char c_lb then
        match extract_nested_content (skipn (end_pos - 1) text) c_lb c_rb with
        | (Some (x :: out), nested_end) => (apply_accent (strip (x :: out)) accent, end_pos + nested_end - 1)
        | _ => (apply_accent [last_char] accent, end_pos)
        end
      else (apply_accent [last_char] accent, end_pos)
  | None => ([], end_pos)
  end.
Fixpoint accents (table : list (str * ch)) (content : str) : option val * nat :=
  match table with
  | [] => (None, 0)
  | (key, accent) :: r =>
      match re_match_at (accent_pattern key) content 0 with
      | Some m => let '(converted, e) := parse_match content (m_end m) accent in (Some (VDict [(lit "type", VStr (lit "text")); (lit "content", VStr converted)]), e)
      | None => accents r content
      end
  end.
(** diacritics.py:125-135 *)
Definition dia_handle (content : str) : option val * nat := accents ACCENT_MAP content.
End Dia.
