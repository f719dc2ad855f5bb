(** Model of tex_utils.py environment matching (lines 114-190). *)
From Coq Require Import List NArith PeanoNat Lia Bool String.
From Verif Require Import PyStr Regex.
Import ListNotations.
Notation length := List.length.
Open Scope list_scope.

(** tex_utils.py:142-162, the while loop; [level] is nesting_level (>= 1 on
    every round), one unit of fuel per round, outer [None] = out of fuel,
    [Some None] = the Python result (-1, -1, ""). *)
Fixpoint encp_loop (fuel : nat) (text : str) (b e : re) (level pos content_start start : nat)
  : option (option (nat * nat * str)) :=
  match fuel with
  | O => None
  | S fuel =>
      if Nat.ltb 0 level && Nat.ltb pos (length text) then
        match re_search_from e text pos with
        | None => Some None
        | Some em =>
            let close := match re_search_from b text pos with
                         | None => true
                         | Some bm => Nat.ltb (m_start em) (m_start bm)
                         end in
            if close then
              let level := level - 1 in
              if Nat.eqb level 0
              then Some (Some (start, m_end em, slice content_start (m_start em) text))
              else encp_loop fuel text b e level (m_end em) content_start start
            else
              match re_search_from b text pos with
              | Some bm => encp_loop fuel text b e (level + 1) (m_end bm) content_start start
              | None => Some None (* not reachable: close is true *)
              end
        end
      else Some None
  end.

(** tex_utils.py:114-162.  The fuel suffices for patterns that match no empty
    string (proved); for others the Python loop can run forever. *)
Definition extract_nested_content_pattern (text : str) (b e : re) : option (option (nat * nat * str)) :=
  match re_search_from b text 0 with
  | None => Some None
  | Some bm => encp_loop (S (length text)) text b e 1 (m_end bm) (m_end bm) (m_start bm)
  end.

(** tex_utils.py:175-176: r"\\begin\s*\{" + re.escape(name) + "}"; an escaped
    name matches itself. *)
Definition env_pattern (cmd name : str) : re :=
  RSeq (rstr cmd) (RSeq (rstar rspace) (RSeq (is_ch c_lb) (RSeq (rstr name) (is_ch c_rb)))).
Definition begin_pattern (name : str) : re := env_pattern (lit "\begin") name.
Definition end_pattern (name : str) : re := env_pattern (lit "\end") name.

(** tex_utils.py:165-190; [None] is (-1, -1, ""). *)
Definition find_matching_env_block (text name : str) (start_pos : nat) : option (nat * nat * str) :=
  match extract_nested_content_pattern (skipn start_pos text) (begin_pattern name) (end_pattern name) with
  | Some (Some (s, e, content)) => Some (s + start_pos, e + start_pos, strip content)
  | _ => None
  end.
