(** Model of LatexPreamble (latex2json/parser/tex_preamble.py:19-124, [get_preamble]); reading the file
    (tex_preamble.py:126-132) is not modelled here. *)
From Coq Require Import List NArith ZArith PeanoNat Bool String.
From Verif Require Import PyStr Regex TexUtilsModel StyleModel DefModel.
Import ListNotations. Notation length := List.length. Notation concat := List.concat. Open Scope list_scope.
Local Notation "# s" := (rstr (lit s)) (at level 1, s at level 0).

(** tex_preamble.py:19 r"\\begin\s*\{document\}" *)
Definition BEGIN_DOCUMENT : re := rseq [#"\begin"; sp; #"{document}"].
(** patterns.py:5-6 OPTIONAL_BRACE_PATTERN *)
Definition OPTIONAL : re := ropt (rseq [#"["; rstar no_rk; #"]"]).
(** patterns.py:32-36 and tex_preamble.py:21-26 *)
Definition USE : re :=
  RAlt (rseq [#"\"; words ["usepackage"; "RequirePackage"]%string; sp; OPTIONAL; sp; BRACE 1])
       (rseq [#"\use"; rplus (RChr is_letter); sp; OPTIONAL; sp; BRACE 2]).
(** tex_preamble.py:27; the lookahead says nothing more *)
Definition DELIM : re := rseq [#"\"; rplus (RChr (fun x => is_letter x || N.eqb x 64))].
(** patterns.py:28-31 *)
Definition CLASS : re := rseq [#"\documentclass"; sp; OPTIONAL; sp; BRACE 1].
Section Any.
Variable u ualpha ualnum : ch -> bool.
(** tex_preamble.py:30-31 *)
Definition AT_LETTER : re := rseq [#"\makeatletter"; RBound (w u)].
Definition AT_OTHER : re := rseq [#"\makeatother"; RBound (w u)].

(** tex_preamble.py:43-50 *)
Definition before_document (content : str) : str :=
  let content := strip_latex_comments content in
  strip (match re_search BEGIN_DOCUMENT content with Some m => firstn (m_start m) content | None => content end).
(** tex_preamble.py:69-71 *)
Definition after_class (content : str) : str := match re_search CLASS content with Some m => skipn (m_end m) content | None => content end.
(** tex_preamble.py:96-107: the end of the block *)
Definition at_block (rest : str) : option nat :=
  match re_match_at AT_LETTER rest 0 with
  | Some _ => match re_search AT_OTHER rest with Some m => Some (m_end m) | None => None end
  | None => None
  end.
(** one line of the output *)
Definition line (piece : str) : str := piece ++ [10%N].
(** tex_preamble.py:73-122; [rest] is content[current_pos:] *)
Fixpoint preamble_loop (fuel : nat) (rest out : str) : outcome str :=
  match fuel with
  | O => Spin
  | S fu =>
      match rest with
      | [] => Ok out
      | _ :: rest1 =>
          match re_search DELIM rest with
          | None => Ok out
          | Some d =>
              if Nat.ltb 0 (m_start d) then preamble_loop fu (skipn (m_start d) rest) out
              else
                let take e := preamble_loop fu (skipn e rest) (out ++ line (firstn e rest)) in
                match re_match_at USE rest 0 with
                | Some m => take (m_end m)
                | None =>
                    match at_block rest with
                    | Some e => take e
                    | None =>
                        if can_handle u rest then
                          match handle u ualpha ualnum rest with
                          | Ok (_, e) => if (0 <? e)%Z then take (Z.to_nat e) else preamble_loop fu rest1 out
                          | Raise => Raise
                          | Spin => Spin
                          end
                        else preamble_loop fu rest1 out
                    end
                end
          end
      end
  end.
(** tex_preamble.py:52-124 *)
Definition get_preamble (content : str) : outcome str :=
  let body := after_class (before_document content) in preamble_loop (S (length body)) body [].
End Any.
