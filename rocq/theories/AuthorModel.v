(** Model of latex2json/parser/handlers/author.py. *)
From Coq Require Import List NArith PeanoNat Bool String.
From Verif Require Import PyStr Regex Json TexUtilsModel ContentModel.
Import ListNotations. Notation length := List.length. Notation concat := List.concat. Open Scope list_scope.

(** [pattern.split(text)] for a pattern without groups whose matches are not empty *)
Fixpoint split_at (text : str) (pos : nat) (ms : list mobj) : list str :=
  match ms with [] => [skipn pos text] | m :: r => slice pos (m_start m) text :: split_at text (m_end m) r end.
Definition re_split (r : re) (text : str) : list str := split_at text 0 (re_finditer r text).

Inductive person := Author | Email | Affiliation | Address | Curraddr | Thanks.
Definition P_opt : re := ropt (rseq [sp; is_ch c_lk; RGrp 1 (rlazy rany); is_ch c_rk]).
Section Authors.
Variable w : ch -> bool.
(** author.py:7 *)
Definition AND_PATTERN : re := RSeq #"\and" (RBound w).
(** author.py:12-24, in order *)
Definition person_pattern (k : person) : re :=
  match k with
  | Author => RSeq #"\author" (RSeq P_opt (RSeq sp lbrace))
  | Email => RSeq #"\email" (RSeq sp lbrace)
  | Affiliation => RSeq bs (RSeq (RAlt #"affil" #"affiliation") (RSeq P_opt (RSeq sp lbrace)))
  | Address => RSeq #"\address" (RSeq sp lbrace)
  | Curraddr => RSeq (rstr (lit "\curraddr")) (RAlt (rstr (lit "{}")) (RBound w))
  | Thanks => RSeq #"\thanks" (RSeq sp lbrace)
  end.
Definition persons : list person := [Author; Email; Affiliation; Address; Curraddr; Thanks].
Fixpoint first_pattern (l : list person) (content : str) : option (person * mobj) :=
  match l with [] => None | k :: r => match re_match_at (person_pattern k) content 0 with Some m => Some (k, m) | None => first_pattern r content end end.
(** author.py:40-54 *)
Definition author_content (content : str) : list str := filter (fun p => negb (nilb p)) (map strip (re_split AND_PATTERN content)).
(** process_content_fn is TexParser.parse (tex_parser.py:79); it gives None back for None *)
Variable process : str -> res (list val).
(** author.py:60-65 *)
Fixpoint author_tokens (l : list str) : res (list val) :=
  match l with
  | [] => Ok []
  | t :: r => do p <- process t; do ps <- author_tokens r; Ok (match p with [] => ps | _ => VList p :: ps end)
  end.
Definition type_name (k : person) : str :=
  match k with Author => lit "author" | Email => lit "email" | Affiliation => lit "affiliation" | Address => lit "address" | Curraddr => lit "curraddr" | Thanks => lit "footnote" end.
Definition person_token (k : person) (v : val) : val := VDict [(lit "type", VStr (type_name k)); (lit "content", v)].
(** author.py:68-104; last_thanks_token is never read *)
Definition author_handle (content : str) : res (option val * nat) :=
  match first_pattern persons content with
  | None => Ok (None, 0)
  | Some (k, m) =>
      let start_pos := m_end m - 1 in
      let '(body, e) := extract_nested_content (skipn start_pos content) c_lb c_rb in
      match k with
      | Thanks => Ok (Some (person_token k (match body with Some b => VStr b | None => VNone end)), start_pos + e)
      | Author =>
          match body with
          | None => Raise TypeError
          | Some b => do l <- author_tokens (author_content b); Ok (Some (person_token k (VList l)), start_pos + e)
          end
      | Curraddr => Ok (None, m_end m)
      | _ =>
          match body with
          | None => Ok (Some (person_token k VNone), start_pos + e)
          | Some b => do l <- process b; Ok (Some (person_token k (VList l)), start_pos + e)
          end
      end
  end.
(** author.py:34-38 *)
Definition author_can_handle (content : str) : bool := match first_pattern persons content with Some _ => true | None => false end.
End Authors.
