(** Model of latex2json/parser/packages/etoolbox.py:7-137. *)
From Coq Require Import List NArith ZArith PeanoNat Lia Bool String.
From Verif Require Import PyStr Regex Json TexUtilsModel.
Import ListNotations. Notation length := List.length. Notation concat := List.concat. Open Scope list_scope.

(** etoolbox.py:7-14: the command name, optional blanks, and an argument without a closing brace *)
Definition brace_arg : list re := [rstar rspace; is_ch c_lb; RGrp 1 (rstar (RChr (fun x => negb (N.eqb x c_rb)))); is_ch c_rb].
Definition ebool_pattern (name : str) : re := rseq (rstr name :: brace_arg).
Definition ifnotbool_pattern : re := rseq (RAlt (rstr (lit "\ifbool")) (rstr (lit "\notbool")) :: brace_arg).

(** str.lower() as far as it decides equality with "true" (no character
    outside ASCII has t, r, u or e as its lower case) *)
Definition lower_ascii (c : ch) : ch := if in_range 65 90 c then (c + 32)%N else c.
Definition is_true_word (s : str) : bool := str_eqb (map lower_ascii s) (lit "true").

(** self.bool_definitions, in insertion order *)
Definition bools := list (str * bool).
Fixpoint blookup (k : str) (d : bools) : option bool :=
  match d with [] => None | (k', v) :: r => if str_eqb k k' then Some v else blookup k r end.
Fixpoint bset (k : str) (v : bool) (d : bools) : bools :=
  match d with [] => [(k, v)] | (k', w) :: r => if str_eqb k k' then (k', v) :: r else (k', w) :: bset k v r end.
Definition group1 (content : str) (m : mobj) : str := match m_group content 1 m with Some s => s | None => [] end.
Definition def_token (name : str) (ty : string) : dict :=
  [(lit "type", VStr (lit "bool_definition")); (lit "name", VStr name); (lit "definition_type", VStr (lit ty))].
Definition set_token (name : str) (v : bool) : dict :=
  [(lit "type", VStr (lit "bool_set")); (lit "name", VStr name); (lit "value", VBool v)].
(** etoolbox.py:46-71 *)
Definition handle_ifnotbool (content : str) (m : mobj) : option dict * nat :=
  let is_not := startswith content (lit "\notbool") in
  let '(blocks, e) := extract_nested_content_sequence_blocks (skipn (m_end m) content) c_lb c_rb (Some 2) in
  match blocks with
  | [b0; b1] =>
      (Some [(lit "type", VStr (lit "bool_conditional")); (lit "name", VStr (group1 content m));
             (lit "true_code", VStr (if is_not then b1 else b0)); (lit "false_code", VStr (if is_not then b0 else b1));
             (lit "is_not", VBool is_not)], m_end m + e)
  | _ => (None, m_end m)
  end.
(** etoolbox.py:73-137: the four definition and assignment methods *)
Definition handle_newbool (d : bools) (content : str) (m : mobj) : bools * (option dict * nat) :=
  (bset (group1 content m) false d, (Some (def_token (group1 content m) "newbool"), m_end m)).
Definition handle_providebool (d : bools) (content : str) (m : mobj) : bools * (option dict * nat) :=
  (match blookup (group1 content m) d with None => bset (group1 content m) false d | Some _ => d end,
   (Some (def_token (group1 content m) "providebool"), m_end m)).
Definition assign (k : str) (v : bool) (d : bools) : bools := match blookup k d with Some _ => bset k v d | None => d end.
Definition handle_setbool (d : bools) (content : str) (m : mobj) : bools * (option dict * nat) :=
  let '(blocks, e) := extract_nested_content_sequence_blocks (skipn (m_end m) content) c_lb c_rb (Some 1) in
  match blocks with
  | [] => (d, (None, m_end m))
  | b :: _ => (assign (group1 content m) (is_true_word b) d, (Some (set_token (group1 content m) (is_true_word b)), m_end m + e))
  end.
Definition handle_bool_value (d : bools) (content : str) (m : mobj) (v : bool) : bools * (option dict * nat) :=
  (assign (group1 content m) v d, (Some (set_token (group1 content m) v), m_end m)).
(** etoolbox.py:28-44 *)
Definition etool_handle (d : bools) (content : str) : bools * (option dict * nat) :=
  match re_match_at ifnotbool_pattern content 0 with Some m => (d, handle_ifnotbool content m) | None =>
  match re_match_at (ebool_pattern (lit "\newbool")) content 0 with Some m => handle_newbool d content m | None =>
  match re_match_at (ebool_pattern (lit "\providebool")) content 0 with Some m => handle_providebool d content m | None =>
  match re_match_at (ebool_pattern (lit "\setbool")) content 0 with Some m => handle_setbool d content m | None =>
  match re_match_at (ebool_pattern (lit "\booltrue")) content 0 with Some m => handle_bool_value d content m true | None =>
  match re_match_at (ebool_pattern (lit "\boolfalse")) content 0 with Some m => handle_bool_value d content m false | None =>
  (d, (None, 0)) end end end end end end.
(** the handler over a sequence of contents *)
Definition etool_run (contents : list str) (d : bools) : bools := fold_left (fun d t => fst (etool_handle d t)) contents d.
