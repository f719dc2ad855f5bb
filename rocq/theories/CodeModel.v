(** Model of latex2json/parser/handlers/code_block.py. *)
From Coq Require Import List NArith PeanoNat Bool String.
From Verif Require Import PyStr Regex Json StyleModel BibModel.
Import ListNotations. Notation length := List.length. Notation concat := List.concat. Open Scope list_scope.

Definition c_ast : ch := 42%N.
Definition tag_re (cmd name : str) : re := RSeq (rstr cmd) (RSeq (rstar rspace) (rstr ([c_lb] ++ name ++ [c_rb]))).
(** code_block.py:7-9 *)
Definition P_verbatim : re := RSeq (tag_re (lit "\begin") (lit "verbatim")) (RSeq (RGrp 1 (rlazy rany)) (tag_re (lit "\end") (lit "verbatim"))).
(** code_block.py:10-13 *)
Definition P_options : re := RSeq (is_ch c_lk) (RSeq (RGrp 1 (rstar (RChr (fun x => negb (N.eqb x c_rk))))) (is_ch c_rk)).
Definition P_lst : re :=
  RSeq (tag_re (lit "\begin") (lit "lstlisting")) (RSeq (ropt P_options) (RSeq (RGrp 2 (rlazy rany)) (tag_re (lit "\end") (lit "lstlisting")))).
(** code_block.py:14-16: an optional star, a character that is not a letter, the shortest text
    without a line feed up to the same character.  The reference back is modelled by hand:
    group 2 and the length of the match behind the star. *)
Definition delimited_verb (s : str) : option (str * nat) :=
  match s with
  | d :: r =>
      if is_letter d then None
      else match find_char d r with
           | Some k => if existsb (N.eqb 10) (firstn k r) then None else Some (firstn k r, k + 2)
           | None => None
           end
  | [] => None
  end.
Definition verb_match (content : str) : option (str * nat) :=
  if startswith content (lit "\verb") then
    let r := skipn 5 content in
    match (match r with x :: r' => if N.eqb x c_ast then option_map (fun p => (fst p, snd p + 6)) (delimited_verb r') else None | [] => None end) with
    | Some p => Some p
    | None => option_map (fun p => (fst p, snd p + 5)) (delimited_verb r)
    end
  else None.
Definition code_token (content : str) (more : dict) : val := VDict ([(lit "type", VStr (lit "code")); (lit "content", VStr (strip content))] ++ more).
Definition grp (text : str) (n : nat) (m : mobj) : str := match m_group text n m with Some g => g | None => [] end.
(** code_block.py:25-54 *)
Definition code_handle (content : str) : option val * nat :=
  match re_match_at P_verbatim content 0 with
  | Some m => (Some (code_token (grp content 1 m) []), m_end m)
  | None =>
      match re_match_at P_lst content 0 with
      | Some m =>
          let title := match grp content 1 m with [] => [] | t => [(lit "title", VStr (strip t))] end in
          (Some (code_token (grp content 2 m) title), m_end m)
      | None =>
          match verb_match content with
          | Some (body, n) => (Some (code_token body [(lit "display", VStr (lit "inline"))]), n)
          | None => (None, 0)
          end
      end
  end.
(** code_block.py:21-23 *)
Definition code_can_handle (content : str) : bool :=
  match re_match_at P_verbatim content 0, re_match_at P_lst content 0, verb_match content with None, None, None => false | _, _, _ => true end.
